(** Damping factors, transition smoothing, baryon fractions, Poisson factors, dewiggling. *)
From Coq Require Import ZArith.
From Coquelicot Require Import Coquelicot.
From Verif Require Import Base Spec Quad Interp HodModel HodSpec Dewiggle PkModel PkSpec BaseFacts QuadFacts
  InterpFacts NumFacts PkFacts.
Open Scope R_scope.

(** ** x / (1 + x) *)
Lemma sat_range x : 0 <= x -> 0 <= x / (1 + x) < 1.
Proof.
  intros H. split.
  - apply Rmult_le_pos; [exact H|]. left. apply Rinv_0_lt_compat. lra.
  - apply Rmult_lt_reg_r with (1 + x); [lra|]. unfold Rdiv. rewrite Rmult_assoc, Rinv_l by lra. lra.
Qed.

Lemma sat_mono x y : 0 <= x -> x <= y -> x / (1 + x) <= y / (1 + y).
Proof.
  intros Hx Hxy. apply Rmult_le_reg_r with ((1 + x) * (1 + y)); [nra|].
  replace (x / (1 + x) * ((1 + x) * (1 + y))) with (x * (1 + y)) by (field; lra).
  replace (y / (1 + y) * ((1 + x) * (1 + y))) with (y * (1 + x)) by (field; lra). nra.
Qed.

Lemma sat_strict x y : 0 <= x -> x < y -> x / (1 + x) < y / (1 + y).
Proof.
  intros Hx Hxy. apply Rmult_lt_reg_r with ((1 + x) * (1 + y)); [nra|].
  replace (x / (1 + x) * ((1 + x) * (1 + y))) with (x * (1 + y)) by (field; lra).
  replace (y / (1 + y) * ((1 + x) * (1 + y))) with (y * (1 + x)) by (field; lra). nra.
Qed.

Lemma quart_nonneg x : 0 <= x ^ 4.
Proof. replace (x ^ 4) with ((x ^ 2) * (x ^ 2)) by ring. pose proof (pow2_ge_0 x). nra. Qed.

Lemma div_mono t k k' : 0 < t -> 0 <= k -> k <= k' -> 0 <= k / t <= k' / t.
Proof.
  intros Ht Hk Hkk. assert (0 < / t) by (apply Rinv_0_lt_compat, Ht). unfold Rdiv. split; nra.
Qed.

(** ** Truncations *)
Lemma trunc1_range t k : 0 < t -> 0 <= trunc1 (Some t) k < 1.
Proof. intros Ht. unfold trunc1. apply sat_range, quart_nonneg. Qed.

Lemma trunc1_mono t k k' : 0 < t -> 0 <= k -> k <= k' -> trunc1 (Some t) k <= trunc1 (Some t) k'.
Proof.
  intros Ht Hk Hkk. unfold trunc1. apply sat_mono; [apply quart_nonneg|].
  apply pow_incr. apply div_mono; assumption.
Qed.

Lemma trunc1_strict t k k' : 0 < t -> 0 <= k -> k < k' -> trunc1 (Some t) k < trunc1 (Some t) k'.
Proof.
  intros Ht Hk Hkk. unfold trunc1. apply sat_strict; [apply quart_nonneg|].
  assert (0 < / t) by (apply Rinv_0_lt_compat, Ht).
  assert (0 <= k / t < k' / t) by (unfold Rdiv; split; nra).
  set (x := k / t) in *. set (y := k' / t) in *.
  replace (y ^ 4) with (y ^ 2 * y ^ 2) by ring. replace (x ^ 4) with (x ^ 2 * x ^ 2) by ring.
  assert (x ^ 2 < y ^ 2) by (simpl; nra). pose proof (pow2_ge_0 x). nra.
Qed.

Lemma trunc1_zero t : 0 < t -> trunc1 (Some t) 0 = 0.
Proof. intros Ht. unfold trunc1. replace (0 / t) with 0 by (field; lra). lra. Qed.

Lemma trunc1_half t : 0 < t -> trunc1 (Some t) t = 1 / 2.
Proof. intros Ht. unfold trunc1. replace (t / t) with 1 by (field; lra). lra. Qed.

Lemma trunc1_scale t s : 0 < t -> trunc1 (Some t) (s * t) = s ^ 4 / (1 + s ^ 4).
Proof. intros Ht. unfold trunc1. replace (s * t / t) with s by (field; lra). reflexivity. Qed.

Lemma trunc2_range kt k : 95 / 100 < trunc2 (Some kt) k <= 1.
Proof.
  unfold trunc2. set (x := fpow _ _). assert (0 <= x) by apply fpow_ge0.
  pose proof (sat_range x H) as Hs. unfold Rdiv in *. rewrite Rmult_assoc. lra.
Qed.

Lemma trunc2_mono kt k k' : 0 <= k -> k <= k' -> trunc2 (Some kt) k' <= trunc2 (Some kt) k.
Proof.
  intros Hk Hkk. unfold trunc2.
  assert (H : fpow (k / (5699 / 100000)) (2853 / 1000) <= fpow (k' / (5699 / 100000)) (2853 / 1000)).
  { apply fpow_le; try lra. }
  assert (H0 := fpow_ge0 (k / (5699 / 100000)) (2853 / 1000)).
  pose proof (sat_mono _ _ H0 H) as Hs. unfold Rdiv in *. rewrite !Rmult_assoc in *. lra.
Qed.

Lemma trunc2_zero kt : trunc2 (Some kt) 0 = 1.
Proof.
  unfold trunc2. replace (0 / (5699 / 100000)) with 0 by field. rewrite fpow_zero by lra. field.
Qed.

Lemma trunc2_ignores kt kt' k : trunc2 (Some kt) k = trunc2 (Some kt') k.
Proof. reflexivity. Qed.

Lemma trunc2_half kt : trunc2 (Some kt) (5699 / 100000) = 975 / 1000.
Proof.
  unfold trunc2. replace (5699 / 100000 / (5699 / 100000)) with 1 by field. rewrite fpow_one. field.
Qed.

Lemma exp_neg_range x : 0 <= x -> 0 < exp (- x) <= 1.
Proof.
  intros H. split; [apply exp_pos|]. rewrite <- exp_0. destruct H as [H|<-].
  - left. apply exp_increasing. lra.
  - rewrite Ropp_0. lra.
Qed.

Lemma trunc_ia_sum t k : trunc1_ia (Some t) k + trunc2_ia (Some t) k = 1.
Proof. unfold trunc1_ia, trunc2_ia. ring. Qed.

Lemma trunc2_ia_range t k : 0 < trunc2_ia (Some t) k <= 1.
Proof. unfold trunc2_ia. apply exp_neg_range, pow2_ge_0. Qed.

Lemma trunc2_ia_mono t k k' : 0 < t -> 0 <= k -> k <= k' -> trunc2_ia (Some t) k' <= trunc2_ia (Some t) k.
Proof.
  intros Ht Hk Hkk. unfold trunc2_ia.
  assert (H : (k / t) ^ 2 <= (k' / t) ^ 2) by (apply pow_incr, div_mono; assumption).
  destruct (Rle_lt_or_eq_dec _ _ H) as [H1|H1].
  - left. apply exp_increasing. lra.
  - rewrite H1. lra.
Qed.

Lemma trunc2_ia_zero t : 0 < t -> trunc2_ia (Some t) 0 = 1.
Proof.
  intros Ht. unfold trunc2_ia. replace (- (0 / t) ^ 2) with 0 by (field; lra). apply exp_0.
Qed.

Lemma trunc2_ia_scale t s : 0 < t -> trunc2_ia (Some t) (s * t) = exp (- s ^ 2).
Proof. intros Ht. unfold trunc2_ia. f_equal. field. lra. Qed.

Lemma mead_1h_range s8 k : 0 < s8 -> 0 <= trunc1_mead s8 k < 1.
Proof. intros _. unfold trunc1_mead. apply sat_range, quart_nonneg. Qed.

Lemma kstar_pos a s8 e : 0 < a -> 0 < s8 -> 0 < a * fpow s8 e.
Proof. intros. apply Rmult_lt_0_compat; [assumption|apply fpow_gt0; assumption]. Qed.

Lemma mead_1h_mono s8 k k' : 0 < s8 -> 0 <= k -> k <= k' -> trunc1_mead s8 k <= trunc1_mead s8 k'.
Proof.
  intros H8 Hk Hkk. unfold trunc1_mead. apply sat_mono; [apply quart_nonneg|].
  apply pow_incr. apply div_mono; try assumption. apply kstar_pos; lra.
Qed.

Lemma mead_1h_zero s8 : 0 < s8 -> trunc1_mead s8 0 = 0.
Proof.
  intros H8. unfold trunc1_mead. pose proof (kstar_pos (5618/100000) s8 (- (1013 / 1000)) ltac:(lra) H8).
  set (a := _ * _) in *. replace (0 / a) with 0 by (field; lra). lra.
Qed.

Lemma mead_1h_half s8 : 0 < s8 -> trunc1_mead s8 (5618 / 100000 * Rpower s8 (- (1013 / 1000))) = 1 / 2.
Proof.
  intros H8. unfold trunc1_mead. pose proof (kstar_pos (5618/100000) s8 (- (1013 / 1000)) ltac:(lra) H8) as H.
  rewrite fpow_pos in * by exact H8. set (a := _ * _) in *.
  replace (a / a) with 1 by (field; lra). lra.
Qed.

Lemma fpow_le_base s e : 1 <= s -> 0 <= e <= 1 -> fpow s e <= s.
Proof.
  intros Hs He. rewrite fpow_pos by lra. rewrite <- (Rpower_1 s) at 2 by lra.
  destruct (Rle_lt_or_eq_dec _ _ Hs) as [H|<-].
  - apply Rle_Rpower; lra.
  - unfold Rpower. rewrite ln_1, !Rmult_0_r. lra.
Qed.

Lemma mead_f_range s8 : 0 < s8 <= 37 / 10 -> 0 < 2696 / 10000 * fpow s8 (9403 / 10000) <= 1.
Proof.
  intros [H0 H1]. split; [apply kstar_pos; lra|].
  assert (fpow s8 (9403 / 10000) <= fpow (37 / 10) (9403 / 10000)) by (apply fpow_le; lra).
  pose proof (fpow_le_base (37 / 10) (9403 / 10000) ltac:(lra) ltac:(lra)). lra.
Qed.

Lemma mead_2h_range s8 k : 0 < s8 <= 37 / 10 -> 0 <= trunc2_mead s8 k <= 1.
Proof.
  intros H8. unfold trunc2_mead. pose proof (mead_f_range s8 H8). set (f := _ * fpow s8 (9403/10000)) in *.
  set (x := fpow _ (2853/1000)). pose proof (sat_range x (fpow_ge0 _ _)) as Hs.
  unfold Rdiv in *. rewrite Rmult_assoc. nra.
Qed.

Lemma mead_2h_mono s8 k k' : 0 < s8 -> 0 <= k -> k <= k' -> trunc2_mead s8 k' <= trunc2_mead s8 k.
Proof.
  intros H8 Hk Hkk. unfold trunc2_mead.
  pose proof (kstar_pos (2696 / 10000) s8 (9403 / 10000) ltac:(lra) H8) as Hf.
  pose proof (kstar_pos (5699 / 100000) s8 (- (1089 / 1000)) ltac:(lra) H8) as Hd.
  set (f := _ * fpow s8 (9403/10000)) in *. set (d := _ * fpow s8 (-(1089/1000))) in *.
  pose proof (div_mono d k k' Hd Hk Hkk) as [Ha Hb].
  pose proof (fpow_le (k / d) (k' / d) (2853/1000) ltac:(lra) Ha Hb) as Hc.
  pose proof (sat_mono _ _ (fpow_ge0 (k / d) (2853 / 1000)) Hc) as Hs.
  unfold Rdiv in *. rewrite !Rmult_assoc. nra.
Qed.

Lemma mead_2h_zero s8 : 0 < s8 -> trunc2_mead s8 0 = 1.
Proof.
  intros H8. unfold trunc2_mead. unfold Rdiv at 4. rewrite Rmult_0_l, fpow_zero by lra.
  unfold Rdiv. ring.
Qed.

Lemma mead_2h_half s8 : 0 < s8 ->
  trunc2_mead s8 (5699 / 100000 * Rpower s8 (- (1089 / 1000)))
  = 1 - 1348 / 10000 * Rpower s8 (9403 / 10000).
Proof.
  intros H8. unfold trunc2_mead.
  pose proof (kstar_pos (5699 / 100000) s8 (- (1089 / 1000)) ltac:(lra) H8) as Hd.
  rewrite !(fpow_pos s8) in * by exact H8. set (d := _ * Rpower s8 (-(1089/1000))) in *.
  replace (d / d) with 1 by (field; lra). rewrite fpow_one. field.
Qed.

(** ** Transition smoothing *)
Lemma alpha_pos neff : 0 < smooth_alpha neff.
Proof. unfold smooth_alpha. apply kstar_pos; lra. Qed.

Lemma alpha_lt n n' : n < n' -> smooth_alpha n < smooth_alpha n'.
Proof.
  intros H. unfold smooth_alpha. rewrite !fpow_pos by lra.
  apply Rmult_lt_compat_l; [lra|]. apply Rpower_lt; lra.
Qed.

Lemma Rpower_base x y a : 0 < x -> 0 < y -> Rpower (x * y) a = Rpower x a * Rpower y a.
Proof. intros. symmetry. apply Rpower_mult_distr; assumption. Qed.

Lemma transition_form neff k p1 p2 : 0 < k -> 0 < p1 -> 0 < p2 ->
  transition neff k p1 p2
  = Rpower (Rpower p1 (smooth_alpha neff) + Rpower p2 (smooth_alpha neff)) (1 / smooth_alpha neff).
Proof.
  intros Hk H1 H2. unfold transition. pose proof (alpha_pos neff) as Ha. set (al := smooth_alpha neff) in *.
  assert (Hp : 0 < k ^ 3 / (2 * PI ^ 2)).
  { apply Rdiv_lt_0_compat; [apply pow_lt, Hk|]. pose proof (pow_lt PI 2 PI_RGT_0). lra. }
  set (P := k ^ 3 / (2 * PI ^ 2)) in *.
  assert (0 < P * p1) by (apply Rmult_lt_0_compat; assumption).
  assert (0 < P * p2) by (apply Rmult_lt_0_compat; assumption).
  rewrite (fpow_pos (P * p1)), (fpow_pos (P * p2)) by assumption.
  rewrite !Rpower_base by assumption. rewrite <- Rmult_plus_distr_l.
  assert (0 < Rpower p1 al + Rpower p2 al) by (pose proof (exp_pos (al * ln p1)); pose proof (exp_pos (al * ln p2)); unfold Rpower; lra).
  assert (0 < Rpower P al) by apply exp_pos.
  rewrite fpow_pos by (apply Rmult_lt_0_compat; assumption).
  rewrite Rpower_base by assumption. rewrite Rpower_mult.
  replace (al * (1 / al)) with 1 by (field; lra). rewrite Rpower_1 by exact Hp. field. lra.
Qed.

Lemma root_form a x : 0 < a -> 0 < x -> Rpower (Rpower x a) (1 / a) = x.
Proof.
  intros Ha Hx. rewrite Rpower_mult. replace (a * (1 / a)) with 1 by (field; lra). apply Rpower_1, Hx.
Qed.

Lemma Rpower_mono x y a : 0 < x -> x <= y -> 0 <= a -> Rpower x a <= Rpower y a.
Proof. intros. apply Rle_Rpower_l; lra. Qed.

Lemma transition_ge neff k p1 p2 : 0 < k -> 0 < p1 -> 0 < p2 -> Rmax p1 p2 <= transition neff k p1 p2.
Proof.
  intros Hk H1 H2. rewrite transition_form by assumption. pose proof (alpha_pos neff) as Ha.
  set (al := smooth_alpha neff) in *.
  assert (0 <= 1 / al) by (unfold Rdiv; rewrite Rmult_1_l; left; apply Rinv_0_lt_compat, Ha).
  apply Rmax_lub.
  - rewrite <- (root_form al p1) at 1 by assumption. apply Rpower_mono; [apply exp_pos| |assumption].
    pose proof (exp_pos (al * ln p2)). unfold Rpower in *. lra.
  - rewrite <- (root_form al p2) at 1 by assumption. apply Rpower_mono; [apply exp_pos| |assumption].
    pose proof (exp_pos (al * ln p1)). unfold Rpower in *. lra.
Qed.

(** x^a <= x for 0 < x < 1 <= a, and conversely. *)
Lemma Rpower_small x a : 0 < x < 1 -> 1 <= a -> Rpower x a <= x.
Proof.
  intros [H0 H1] Ha. rewrite <- (Rpower_1 x) at 2 by lra. unfold Rpower.
  assert (ln x < 0) by (rewrite <- ln_1; apply ln_increasing; lra).
  assert (H2 : a * ln x <= 1 * ln x) by nra. destruct H2 as [H2|H2].
  - left. apply exp_increasing, H2.
  - rewrite H2. lra.
Qed.
Lemma Rpower_big x a : 0 < x < 1 -> a <= 1 -> x <= Rpower x a.
Proof.
  intros [H0 H1] Ha. rewrite <- (Rpower_1 x) at 1 by lra. unfold Rpower.
  assert (ln x < 0) by (rewrite <- ln_1; apply ln_increasing; lra).
  assert (H2 : 1 * ln x <= a * ln x) by nra. destruct H2 as [H2|H2].
  - left. apply exp_increasing, H2.
  - rewrite H2. lra.
Qed.

Lemma norm_split a p1 p2 : 0 < p1 -> 0 < p2 ->
  Rpower p1 a + Rpower p2 a
  = Rpower (p1 + p2) a * (Rpower (p1 / (p1 + p2)) a + Rpower (p2 / (p1 + p2)) a).
Proof.
  intros H1 H2. rewrite Rmult_plus_distr_l.
  assert (0 < p1 / (p1 + p2)) by (apply Rdiv_lt_0_compat; lra).
  assert (0 < p2 / (p1 + p2)) by (apply Rdiv_lt_0_compat; lra).
  rewrite <- !Rpower_base by lra. f_equal; f_equal; field; lra.
Qed.

Lemma frac_lt1 p1 p2 : 0 < p1 -> 0 < p2 -> 0 < p1 / (p1 + p2) < 1.
Proof.
  intros. split; [apply Rdiv_lt_0_compat; lra|].
  apply Rmult_lt_reg_r with (p1 + p2); [lra|]. unfold Rdiv. rewrite Rmult_assoc, Rinv_l by lra. lra.
Qed.

Lemma transition_le_sum neff k p1 p2 : 0 < k -> 0 < p1 -> 0 < p2 -> 1 <= smooth_alpha neff ->
  transition neff k p1 p2 <= p1 + p2.
Proof.
  intros Hk H1 H2 Ha. rewrite transition_form by assumption. set (al := smooth_alpha neff) in *.
  rewrite <- (root_form al (p1 + p2)) by lra. apply Rpower_mono.
  - pose proof (exp_pos (al * ln p1)); pose proof (exp_pos (al * ln p2)); unfold Rpower; lra.
  - rewrite norm_split by assumption. rewrite <- Rmult_1_r. apply Rmult_le_compat_l; [left; apply exp_pos|].
    pose proof (frac_lt1 p1 p2 H1 H2) as F1. pose proof (frac_lt1 p2 p1 H2 H1) as F2.
    rewrite (Rplus_comm p2 p1) in F2.
    pose proof (Rpower_small _ al F1 Ha). pose proof (Rpower_small _ al F2 Ha).
    assert (p1 / (p1 + p2) + p2 / (p1 + p2) = 1) by (field; lra). lra.
  - unfold Rdiv. rewrite Rmult_1_l. left. apply Rinv_0_lt_compat. lra.
Qed.

Lemma transition_ge_sum neff k p1 p2 : 0 < k -> 0 < p1 -> 0 < p2 -> smooth_alpha neff <= 1 ->
  p1 + p2 <= transition neff k p1 p2.
Proof.
  intros Hk H1 H2 Ha. rewrite transition_form by assumption. pose proof (alpha_pos neff) as Hp.
  set (al := smooth_alpha neff) in *.
  rewrite <- (root_form al (p1 + p2)) at 1 by lra. apply Rpower_mono.
  - apply exp_pos.
  - rewrite norm_split by assumption. rewrite <- Rmult_1_r at 1. apply Rmult_le_compat_l; [left; apply exp_pos|].
    pose proof (frac_lt1 p1 p2 H1 H2) as F1. pose proof (frac_lt1 p2 p1 H2 H1) as F2.
    rewrite (Rplus_comm p2 p1) in F2.
    pose proof (Rpower_big _ al F1 Ha). pose proof (Rpower_big _ al F2 Ha).
    assert (p1 / (p1 + p2) + p2 / (p1 + p2) = 1) by (field; lra). lra.
  - unfold Rdiv. rewrite Rmult_1_l. left. apply Rinv_0_lt_compat. lra.
Qed.

Lemma transition_sum neff k p1 p2 : 0 < k -> 0 < p1 -> 0 < p2 -> smooth_alpha neff = 1 ->
  transition neff k p1 p2 = p1 + p2.
Proof.
  intros Hk H1 H2 Ha. apply Rle_antisym; [apply transition_le_sum|apply transition_ge_sum]; try assumption; lra.
Qed.

Lemma transition_sym neff k p1 p2 : transition neff k p1 p2 = transition neff k p2 p1.
Proof. unfold transition. rewrite Rplus_comm. reflexivity. Qed.

Lemma transition_scale neff k c p1 p2 : 0 < k -> 0 < p1 -> 0 < p2 -> 0 < c ->
  transition neff k (c * p1) (c * p2) = c * transition neff k p1 p2.
Proof.
  intros Hk H1 H2 Hc. rewrite !transition_form by (try assumption; apply Rmult_lt_0_compat; assumption).
  pose proof (alpha_pos neff) as Ha. set (al := smooth_alpha neff) in *.
  rewrite !Rpower_base by assumption. rewrite <- Rmult_plus_distr_l.
  rewrite Rpower_base, root_form; try assumption; [reflexivity|apply exp_pos|].
  pose proof (exp_pos (al * ln p1)); pose proof (exp_pos (al * ln p2)); unfold Rpower; lra.
Qed.

(** ** Baryon fractions *)
Lemma gas_pivot_pos logT z : 0 < gas_pivot logT z.
Proof. unfold gas_pivot. apply Rmult_lt_0_compat; apply pow10_pos. Qed.

Lemma fg_fit_range ob om m mb fst : 0 <= fst -> fst <= ob / om -> 0 < mb ->
  0 <= fg_fit ob om m mb fst <= ob / om - fst.
Proof.
  intros H0 H1 Hmb. unfold fg_fit. pose proof (sat_range ((m / mb) ^ 2) (pow2_ge_0 _)) as Hs.
  unfold Rdiv in *. rewrite Rmult_assoc. nra.
Qed.

Lemma fg_fit_strict ob om m mb fst : fst < ob / om -> 0 < mb -> fg_fit ob om m mb fst < ob / om - fst.
Proof.
  intros H1 Hmb. unfold fg_fit. pose proof (sat_range ((m / mb) ^ 2) (pow2_ge_0 _)) as Hs.
  unfold Rdiv in *. rewrite Rmult_assoc. nra.
Qed.

Lemma fg_fit_mono ob om m m' mb fst : fst <= ob / om -> 0 < mb -> 0 <= m -> m <= m' ->
  fg_fit ob om m mb fst <= fg_fit ob om m' mb fst.
Proof.
  intros H1 Hmb Hm Hmm. unfold fg_fit.
  pose proof (div_mono mb m m' Hmb Hm Hmm) as H.
  pose proof (sat_mono ((m / mb) ^ 2) ((m' / mb) ^ 2) (pow2_ge_0 _) (pow_incr _ _ 2 H)) as Hs.
  unfold Rdiv in *. rewrite !Rmult_assoc. apply Rmult_le_compat_l; [lra|exact Hs].
Qed.

Lemma fg_fit_half ob om mb fst : 0 < mb -> fg_fit ob om mb mb fst = (ob / om - fst) / 2.
Proof.
  intros H. unfold fg_fit. replace (mb / mb) with 1 by (field; lra). unfold Rdiv. rewrite pow1. lra.
Qed.

Lemma fg_is_fit ob om logT m z fst : fg ob om logT m z fst = fg_fit ob om m (gas_pivot logT z) fst.
Proof. reflexivity. Qed.

(** The weight of a halo on large scales: cold matter, gas and stars. *)
Lemma budget oc ob om f fst : 0 < om -> oc + ob = om -> f <= ob / om - fst -> oc / om + f + fst <= 1.
Proof.
  intros Ho E H. assert (oc / om + ob / om = 1) by (rewrite <- E; field; lra). lra.
Qed.

Lemma matter_obs_weight S fstar b z k m : 0 < s_om S -> s_oc S + s_ob S = s_om S -> 0 < s_mb S ->
  0 <= s_mass S m -> 0 < s_rho S z -> 0 <= fstar b z m <= s_ob S / s_om S -> u_dm S z k m = 1 ->
  0 <= s_oc S ->
  s_oc S / s_om S * (s_mass S m / s_rho S z) <= matter_profile_obs S fstar b z k m <= s_mass S m / s_rho S z.
Proof.
  intros Ho E Hmb Hm Hr [F0 F1] Hu Hoc. unfold matter_profile_obs. rewrite Hu.
  pose proof (fg_fit_range (s_ob S) (s_om S) (s_mass S m) (s_mb S) (fstar b z m) F0 F1 Hmb) as [G0 G1].
  pose proof (budget _ _ _ _ _ Ho E G1).
  assert (0 <= s_oc S / s_om S) by (apply Rmult_le_pos; [assumption|left; apply Rinv_0_lt_compat, Ho]).
  assert (0 <= s_mass S m / s_rho S z) by (apply Rmult_le_pos; [assumption|left; apply Rinv_0_lt_compat, Hr]).
  set (W := s_mass S m / s_rho S z) in *. set (g := fg_fit _ _ _ _ _) in *. split; nra.
Qed.

Lemma matter_fb_weight S b z k m : 0 < s_om S -> s_oc S + s_ob S = s_om S ->
  0 <= s_mass S m -> 0 < s_rho S z -> 0 <= fs (s_logT S) (s_zvec S z) <= s_ob S / s_om S -> u_dm S z k m = 1 ->
  0 <= s_oc S ->
  s_oc S / s_om S * (s_mass S m / s_rho S z) <= matter_profile_fb S b z k m <= s_mass S m / s_rho S z.
Proof.
  intros Ho E Hm Hr [F0 F1] Hu Hoc. unfold matter_profile_fb. rewrite Hu. rewrite fg_is_fit.
  pose proof (fg_fit_range (s_ob S) (s_om S) (s_mass S m) (gas_pivot (s_logT S) (s_zvec S z)) _ F0 F1
    (gas_pivot_pos _ _)) as [G0 G1].
  pose proof (budget _ _ _ _ _ Ho E G1).
  assert (0 <= s_oc S / s_om S) by (apply Rmult_le_pos; [assumption|left; apply Rinv_0_lt_compat, Ho]).
  assert (0 <= s_mass S m / s_rho S z) by (apply Rmult_le_pos; [assumption|left; apply Rinv_0_lt_compat, Hr]).
  set (W := s_mass S m / s_rho S z) in *. set (g := fg_fit _ _ _ _ _) in *. split; nra.
Qed.

(** ** Poisson factors *)
Lemma poisson_constant v mass : exists p, poisson_func (PConstant v) mass = Ok p /\ forall m, p m = v.
Proof. eexists. split; [reflexivity|]. intros m. simpl. ring. Qed.

Lemma poisson_power v M0 al mass : (forall m, 0 < mass m) ->
  exists p, poisson_func (PPowerLaw v (Some M0) (Some al)) mass = Ok p /\
  (forall m, mass m = pow10 M0 -> p m = v) /\
  (forall m m', p m * Rpower (mass m') al = p m' * Rpower (mass m) al) /\
  (forall m, p m = v * Rpower (mass m / pow10 M0) al).
Proof.
  intros Hm. eexists. split; [reflexivity|].
  assert (F : forall m, fpow (mass m / pow10 M0) al = Rpower (mass m / pow10 M0) al).
  { intros m. apply fpow_pos, Rdiv_lt_0_compat; [apply Hm|apply pow10_pos]. }
  pose proof (pow10_pos M0) as HM. split; [|split]; intros; cbv beta.
  - rewrite H. unfold Rdiv. rewrite Rinv_r by lra. rewrite fpow_one. ring.
  - rewrite !F. unfold Rdiv. rewrite !Rpower_base by (try apply Hm; apply Rinv_0_lt_compat, HM). ring.
  - rewrite F. reflexivity.
Qed.

Lemma poisson_rejects v p s mass : p = None \/ s = None ->
  poisson_func (PPowerLaw v p s) mass = Err "ValueError".
Proof. intros [-> | ->]; [|destruct p]; reflexivity. Qed.

(** ** Dewiggling *)
Lemma guard_passes nk k : (2 <= nk)%nat -> spacing_guard nk k = Ok tt.
Proof.
  intros Hn. unfold spacing_guard. destruct (Nat.leb_spec nk 1); [lia|].
  assert (H1 : forall n (x : A1), x 0%nat = 0 -> (1 <= n)%nat -> all_nonzero n x = false).
  { intros n x Hx Hn1. induction n as [|n IH]; [lia|]. simpl. destruct n as [|n].
    - simpl. destruct (Req_EM_T (x 0%nat) 0); [reflexivity|contradiction].
    - rewrite IH by lia. reflexivity. }
  rewrite H1; [reflexivity|ring|lia].
Qed.

Lemma guard_short nk k : (nk <= 1)%nat -> spacing_guard nk k = Err "IndexError".
Proof. intros Hn. unfold spacing_guard. destruct (Nat.leb_spec nk 1); [reflexivity|lia]. Qed.

Lemma kernel_raw_pos s rad i : 0 < kernel_raw s rad i.
Proof. apply exp_pos. Qed.

Lemma kernel_sum_pos s rad : 0 < sumR (2 * rad + 1) (kernel_raw s rad).
Proof.
  assert (H : forall n, 0 < sumR (Datatypes.S n) (kernel_raw s rad)).
  { induction n as [|n IH].
    - simpl. pose proof (kernel_raw_pos s rad 0). lra.
    - change (0 < sumR (Datatypes.S n) (kernel_raw s rad) + kernel_raw s rad (Datatypes.S n)).
      pose proof (kernel_raw_pos s rad (Datatypes.S n)). lra. }
  replace (2 * rad + 1)%nat with (Datatypes.S (2 * rad)) by lia. apply H.
Qed.

Lemma kernel_sum s rad : sumR (2 * rad + 1) (kernel s rad) = 1.
Proof.
  pose proof (kernel_sum_pos s rad) as H. unfold kernel.
  rewrite (sumR_ext _ _ (fun i => / sumR (2 * rad + 1) (kernel_raw s rad) * kernel_raw s rad i)).
  - rewrite sumR_scal. field. lra.
  - intros i _. unfold Rdiv. ring.
Qed.

Lemma kernel_pos s rad i : 0 < kernel s rad i.
Proof. unfold kernel. apply Rdiv_lt_0_compat; [apply kernel_raw_pos|apply kernel_sum_pos]. Qed.

Lemma kernel_mirror s rad i : (i <= 2 * rad)%nat -> kernel s rad (2 * rad - i) = kernel s rad i.
Proof.
  intros H. unfold kernel. f_equal. unfold kernel_raw. f_equal. rewrite minus_INR by exact H.
  rewrite mult_INR. simpl INR. ring.
Qed.

Lemma filter_const n s c i : gaussian_filter1d n s (fun _ => c) i = c.
Proof.
  unfold gaussian_filter1d. cbv zeta.
  rewrite (sumR_ext _ _ (fun j => c * kernel s (filter_radius s) j)) by (intros; ring).
  rewrite sumR_scal, kernel_sum. ring.
Qed.

Lemma reflect_in n p : (1 <= n)%nat -> (reflect n p < n)%nat.
Proof.
  intros Hn. unfold reflect. cbv zeta. pose proof (Z.mod_pos_bound p (2 * Z.of_nat n) ltac:(lia)).
  destruct (Z.ltb_spec (p mod (2 * Z.of_nat n)) (Z.of_nat n)); lia.
Qed.

Lemma filter_ext n s y y' i : (1 <= n)%nat -> (forall j, (j < n)%nat -> y j = y' j) ->
  gaussian_filter1d n s y i = gaussian_filter1d n s y' i.
Proof.
  intros Hn H. unfold gaussian_filter1d. apply sumR_ext. intros j _. rewrite H; [reflexivity|].
  apply reflect_in, Hn.
Qed.

Lemma filter_bounds n s y i lo hi : (1 <= n)%nat -> (forall j, (j < n)%nat -> lo <= y j <= hi) ->
  lo <= gaussian_filter1d n s y i <= hi.
Proof.
  intros Hn H. rewrite <- (filter_const n s lo i) at 1. rewrite <- (filter_const n s hi i).
  unfold gaussian_filter1d. split; apply sumR_le; intros j _;
    pose proof (kernel_pos s (filter_radius s) j);
    pose proof (H _ (reflect_in n (Z.of_nat i + Z.of_nat j - Z.of_nat (filter_radius s)) Hn)); nra.
Qed.

Lemma nowiggle_pos k ns lnt i : 0 < k i -> 0 < pk_nowiggle k ns lnt i.
Proof.
  intros H. unfold pk_nowiggle. apply Rmult_lt_0_compat; [apply fpow_gt0, H|]. apply pow_lt, exp_pos.
Qed.

(** A spectrum proportional to the no-wiggle shape has no wiggle. *)
Lemma wiggle_free nk k p ns lnt c i : (1 <= nk)%nat -> (i < nk)%nat -> (forall j, (j < nk)%nat -> 0 < k j) ->
  (forall j, (j < nk)%nat -> p j = c * pk_nowiggle k ns lnt j) -> pk_wiggle nk k p ns lnt i = 0.
Proof.
  intros Hn Hi Hk Hp. unfold pk_wiggle. cbv zeta.
  rewrite (filter_ext nk _ _ (fun _ => c)) by
    (try exact Hn; intros j Hj; rewrite Hp by exact Hj; pose proof (nowiggle_pos k ns lnt j (Hk j Hj)); field; lra).
  rewrite filter_const, Hp by exact Hi. ring.
Qed.

Lemma dewiggle_free nk k p ns lnt c i : (1 <= nk)%nat -> (i < nk)%nat -> (forall j, (j < nk)%nat -> 0 < k j) ->
  (forall j, (j < nk)%nat -> p j = c * pk_nowiggle k ns lnt j) -> dewiggle_plin nk k p ns lnt i = p i.
Proof.
  intros. unfold dewiggle_plin. rewrite (wiggle_free nk k p ns lnt c i) by assumption. ring.
Qed.

Lemma dewiggle_between nk k p ns lnt i :
  between (p i) (p i - pk_wiggle nk k p ns lnt i) (dewiggle_plin nk k p ns lnt i).
Proof.
  unfold dewiggle_plin, between. cbv zeta. set (x := (k i * sigmaV nk k p)).
  pose proof (exp_neg_range (x ^ 2) (pow2_ge_0 x)). set (e := exp (- x ^ 2)) in *.
  set (w := pk_wiggle _ _ _ _ _ _). unfold Rmin, Rmax.
  destruct (Rle_dec (p i) (p i - w)); split; nra.
Qed.

(** The smoothed spectrum P - wiggle is the no-wiggle shape times a local average of P / no-wiggle. *)
Lemma smooth_bounds nk k p ns lnt i lo hi : (1 <= nk)%nat -> (i < nk)%nat -> (forall j, (j < nk)%nat -> 0 < k j) ->
  (forall j, (j < nk)%nat -> lo * pk_nowiggle k ns lnt j <= p j <= hi * pk_nowiggle k ns lnt j) ->
  lo * pk_nowiggle k ns lnt i <= dewiggle_plin nk k p ns lnt i <= hi * pk_nowiggle k ns lnt i.
Proof.
  intros Hn Hi Hk Hp. pose proof (dewiggle_between nk k p ns lnt i) as Hb.
  assert (Hs : lo * pk_nowiggle k ns lnt i <= p i - pk_wiggle nk k p ns lnt i <= hi * pk_nowiggle k ns lnt i).
  { unfold pk_wiggle. cbv zeta. set (G := gaussian_filter1d _ _ _ _).
    assert (HG : lo <= G <= hi).
    { apply filter_bounds; [exact Hn|]. intros j Hj. pose proof (nowiggle_pos k ns lnt j (Hk j Hj)) as Hq.
      destruct (Hp j Hj). split; apply Rmult_le_reg_r with (pk_nowiggle k ns lnt j); try exact Hq;
        unfold Rdiv; rewrite Rmult_assoc, Rinv_l by lra; lra. }
    pose proof (nowiggle_pos k ns lnt i (Hk i Hi)). replace (p i - (p i - G * pk_nowiggle k ns lnt i)) with
      (G * pk_nowiggle k ns lnt i) by ring. split; apply Rmult_le_compat_r; lra. }
  pose proof (Hp i Hi). unfold between, Rmin, Rmax in Hb.
  destruct (Rle_dec (p i) (p i - pk_wiggle nk k p ns lnt i)); lra.
Qed.
