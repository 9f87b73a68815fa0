(** Facts about the numpy-level vocabulary of Base.v. *)
From Verif Require Import Base QuadFacts.
Open Scope R_scope.

Lemma ln_ten_pos : 0 < ln ten.
Proof. unfold ten. rewrite <- ln_1. apply ln_increasing; lra. Qed.

Lemma pow10_pos x : 0 < pow10 x.
Proof. apply exp_pos. Qed.

Lemma pow10_plus a b : pow10 (a + b) = pow10 a * pow10 b.
Proof. apply Rpower_plus. Qed.

Lemma pow10_lt a b : a < b -> pow10 a < pow10 b.
Proof. intros H. apply Rpower_lt; [unfold ten; lra|exact H]. Qed.

Lemma pow10_le a b : a <= b -> pow10 a <= pow10 b.
Proof. intros [H| ->]; [left; apply pow10_lt, H|right; reflexivity]. Qed.

Lemma pow10_0 : pow10 0 = 1.
Proof. apply Rpower_O. unfold ten; lra. Qed.

Lemma pow10_1 : pow10 1 = 10.
Proof. unfold pow10. rewrite Rpower_1; unfold ten; lra. Qed.

Lemma pow10_log10 x : 0 < x -> pow10 (log10 x) = x.
Proof.
  intros H. unfold pow10, log10, Rpower.
  replace (ln x / ln ten * ln ten) with (ln x) by (pose proof ln_ten_pos; field; lra).
  apply exp_ln, H.
Qed.

Lemma log10_pow10 x : log10 (pow10 x) = x.
Proof.
  unfold pow10, log10, Rpower. rewrite ln_exp. pose proof ln_ten_pos. field. lra.
Qed.

Lemma log10_lt a b : 0 < a -> a < b -> log10 a < log10 b.
Proof.
  intros Ha Hab. unfold log10, Rdiv. apply Rmult_lt_compat_r.
  - apply Rinv_0_lt_compat, ln_ten_pos.
  - apply ln_increasing; assumption.
Qed.

Lemma log10_le a b : 0 < a -> a <= b -> log10 a <= log10 b.
Proof. intros Ha [H| ->]; [left; apply log10_lt; assumption|lra]. Qed.

Lemma log10_1 : log10 1 = 0.
Proof. unfold log10. rewrite ln_1. unfold Rdiv. ring. Qed.

Lemma log10_mult a b : 0 < a -> 0 < b -> log10 (a * b) = log10 a + log10 b.
Proof. intros Ha Hb. unfold log10. rewrite ln_mult by assumption. unfold Rdiv. ring. Qed.

Lemma log10_div a b : 0 < a -> 0 < b -> log10 (a / b) = log10 a - log10 b.
Proof.
  intros Ha Hb. unfold Rdiv. rewrite log10_mult by (try assumption; apply Rinv_0_lt_compat, Hb).
  unfold log10. rewrite ln_Rinv by exact Hb. unfold Rdiv. ring.
Qed.

Lemma heaviside_neg x h : x < 0 -> heaviside x h = 0.
Proof. intros H. unfold heaviside. destruct (Rlt_dec x 0); [reflexivity|lra]. Qed.

Lemma heaviside_nonneg1 x : 0 <= x -> heaviside x 1 = 1.
Proof.
  intros H. unfold heaviside. destruct (Rlt_dec x 0); [lra|].
  destruct (Req_EM_T x 0); reflexivity.
Qed.

Lemma heaviside01 x : heaviside x 1 = 0 \/ heaviside x 1 = 1.
Proof.
  destruct (Rlt_dec x 0); [left; apply heaviside_neg; assumption|].
  right; apply heaviside_nonneg1; lra.
Qed.

Lemma heaviside_le x y : x <= y -> heaviside x 1 <= heaviside y 1.
Proof.
  intros H. destruct (Rlt_dec x 0) as [Hx|Hx].
  - rewrite (heaviside_neg x) by exact Hx. destruct (heaviside01 y) as [-> | ->]; lra.
  - rewrite (heaviside_nonneg1 x), (heaviside_nonneg1 y) by lra. lra.
Qed.

Lemma fmin_Rmin a b : fmin a b = Rmin a b.
Proof. reflexivity. Qed.

Lemma fmax_Rmax a b : fmax a b = Rmax a b.
Proof. reflexivity. Qed.

Lemma fpow_pos x a : 0 < x -> fpow x a = Rpower x a.
Proof. intros H. unfold fpow. destruct (Rle_dec x 0); [lra|reflexivity]. Qed.

Lemma fpow_gt0 x a : 0 < x -> 0 < fpow x a.
Proof. intros H. rewrite fpow_pos by exact H. apply exp_pos. Qed.

Lemma fpow_ge0 x a : 0 <= fpow x a.
Proof.
  unfold fpow. destruct (Rle_dec x 0); [destruct (Req_EM_T a 0); lra|left; apply exp_pos].
Qed.

Lemma fpow_zero a : 0 < a -> fpow 0 a = 0.
Proof.
  intros H. unfold fpow. destruct (Rle_dec 0 0); [|lra]. destruct (Req_EM_T a 0); [lra|reflexivity].
Qed.

Lemma fpow_0_r x : 0 <= x -> fpow x 0 = 1.
Proof.
  intros H. unfold fpow. destruct (Rle_dec x 0); [destruct (Req_EM_T 0 0); [reflexivity|lra]|].
  apply Rpower_O; lra.
Qed.

Lemma fpow_le x y a : 0 < a -> 0 <= x -> x <= y -> fpow x a <= fpow y a.
Proof.
  intros Ha Hx Hxy. destruct (Req_EM_T x 0) as [->|Hne].
  - rewrite fpow_zero by exact Ha. apply fpow_ge0.
  - rewrite !fpow_pos by lra. unfold Rpower.
    destruct (Rle_lt_or_eq_dec (a * ln x) (a * ln y)) as [H|H].
    + apply Rmult_le_compat_l; [lra|].
      destruct Hxy as [Hlt| ->]; [left; apply ln_increasing; lra|lra].
    + left; apply exp_increasing, H.
    + rewrite H. lra.
Qed.

Lemma fpow_lt x y a : 0 < a -> 0 <= x -> x < y -> fpow x a < fpow y a.
Proof.
  intros Ha Hx Hxy. destruct (Req_EM_T x 0) as [->|Hne].
  - rewrite fpow_zero by exact Ha. apply fpow_gt0; exact Hxy.
  - rewrite !fpow_pos by lra. unfold Rpower. apply exp_increasing.
    apply Rmult_lt_compat_l; [exact Ha|]. apply ln_increasing; lra.
Qed.

Lemma fpow_mult x y a : 0 < x -> 0 < y -> fpow (x * y) a = fpow x a * fpow y a.
Proof.
  intros Hx Hy. rewrite !fpow_pos; try assumption; [|apply Rmult_lt_0_compat; assumption].
  unfold Rpower. rewrite ln_mult by assumption. rewrite Rmult_plus_distr_l. apply exp_plus.
Qed.

Lemma fpow_add x a b : 0 < x -> fpow x (a + b) = fpow x a * fpow x b.
Proof. intros Hx. rewrite !fpow_pos by exact Hx. apply Rpower_plus. Qed.

Lemma fpow_1 x : 0 <= x -> fpow x 1 = x.
Proof.
  intros H. destruct (Req_EM_T x 0) as [->|Hne]; [apply fpow_zero; lra|].
  rewrite fpow_pos by lra. apply Rpower_1. lra.
Qed.

Lemma fpow_one a : fpow 1 a = 1.
Proof. rewrite fpow_pos by lra. unfold Rpower. rewrite ln_1, Rmult_0_r. apply exp_0. Qed.

(** ** linspace and logspace *)

Lemma linspace_first a b n : (1 <= n)%nat -> linspace a b n 0 = if Nat.eqb n 1 then a else a.
Proof.
  intros H. unfold linspace. destruct (Nat.eqb n 1) eqn:E; [reflexivity|].
  apply Nat.eqb_neq in E. replace (1 =? n)%nat with false by (symmetry; apply Nat.eqb_neq; lia).
  simpl. ring.
Qed.

Lemma linspace_first' a b n : (1 <= n)%nat -> linspace a b n 0 = a.
Proof. intros H. rewrite linspace_first by exact H. destruct (Nat.eqb n 1); reflexivity. Qed.

Lemma linspace_last a b n : (2 <= n)%nat -> linspace a b n (n - 1) = b.
Proof.
  intros H. unfold linspace.
  replace (n =? 1)%nat with false by (symmetry; apply Nat.eqb_neq; lia).
  replace (S (n - 1) =? n)%nat with true by (symmetry; apply Nat.eqb_eq; lia). reflexivity.
Qed.

(** Uniform formula valid at every index. *)
Lemma linspace_eq a b n i : (2 <= n)%nat -> (i < n)%nat ->
  linspace a b n i = a + INR i * ((b - a) / INR (n - 1)).
Proof.
  intros Hn Hi. unfold linspace.
  replace (n =? 1)%nat with false by (symmetry; apply Nat.eqb_neq; lia).
  destruct (S i =? n)%nat eqn:E; [|reflexivity].
  apply Nat.eqb_eq in E. subst n. replace (S i - 1)%nat with i by lia.
  field. apply not_0_INR. lia.
Qed.

Lemma INR_pred_pos n : (2 <= n)%nat -> 0 < INR (n - 1).
Proof. intros H. apply lt_0_INR. lia. Qed.

Lemma linspace_step a b n i : (2 <= n)%nat -> (S i < n)%nat ->
  linspace a b n (S i) - linspace a b n i = (b - a) / INR (n - 1).
Proof.
  intros Hn Hi. rewrite !linspace_eq by lia. rewrite S_INR. ring.
Qed.

Lemma linspace_incr a b n : (2 <= n)%nat -> a < b -> incr n (linspace a b n).
Proof.
  intros Hn Hab i Hi. pose proof (linspace_step a b n i Hn Hi) as E.
  pose proof (INR_pred_pos n Hn) as Hp.
  assert (0 < (b - a) / INR (n - 1)) by (apply Rdiv_lt_0_compat; lra). lra.
Qed.

Lemma logspace_geometric a b n : (2 <= n)%nat ->
  geometric n (pow10 ((b - a) / INR (n - 1))) (logspace a b n).
Proof.
  intros Hn. split; [apply pow10_pos|].
  intros i Hi. unfold logspace.
  rewrite <- pow10_plus. f_equal. rewrite <- (linspace_step a b n i Hn Hi). ring.
Qed.

Lemma logspace_first a b n : (1 <= n)%nat -> logspace a b n 0 = pow10 a.
Proof. intros H. unfold logspace. rewrite linspace_first' by exact H. reflexivity. Qed.

Lemma logspace_last a b n : (2 <= n)%nat -> logspace a b n (n - 1) = pow10 b.
Proof. intros H. unfold logspace. rewrite linspace_last by exact H. reflexivity. Qed.

Lemma logspace_incr a b n : (2 <= n)%nat -> a < b -> incr n (logspace a b n).
Proof. intros Hn Hab i Hi. apply pow10_lt. apply linspace_incr; assumption. Qed.
