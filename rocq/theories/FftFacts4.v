(** Proofs about pyfftlog: orthogonality of the harmonics, inverse, modes. *)
From Coq Require Import ZArith Lia.
From Verif Require Import Base QuadFacts FftModel FftFacts FftFacts2 FftFacts3.
Open Scope R_scope.

Lemma sumR_shift n f : sumR (S n) f = f 0%nat + sumR n (fun k => f (S k)).
Proof. induction n as [|n IH]; [cbn; ring|]. cbn [sumR] in *. rewrite IH. ring. Qed.
Lemma sumR_app a b f : sumR (a + b) f = sumR a f + sumR b (fun i => f (a + i)%nat).
Proof. induction b as [|b IH]; [rewrite Nat.add_0_r; cbn; ring|]. rewrite Nat.add_succ_r. cbn [sumR]. rewrite IH. ring. Qed.
Lemma sumR_rev n f : sumR n f = sumR n (fun i => f (n - 1 - i)%nat).
Proof.
  induction n as [|n IH]; [reflexivity|]. rewrite (sumR_shift n (fun i => f (S n - 1 - i)%nat)). cbn [sumR]. replace (S n - 1 - 0)%nat with n by lia. rewrite IH, Rplus_comm. f_equal.
  apply sumR_ext. intros i Hi. f_equal. lia.
Qed.
Lemma sumR_one n f k : (k < n)%nat -> (forall i, (i < n)%nat -> i <> k -> f i = 0) -> sumR n f = f k.
Proof.
  induction n as [|n IH]; [lia|]. intros Hk H. cbn. destruct (Nat.eq_dec k n) as [-> |N].
  - rewrite (sumR_ext n f (fun _ => 0)) by (intros i Hi; apply H; lia). rewrite sumR_zero. ring.
  - rewrite (H n) by lia. rewrite Rplus_0_r. apply IH; [lia|]. intros i Hi. apply H. lia.
Qed.

(** Sums of a harmonic over a full period. *)
Lemma tele n A b : sumR n (fun l => cos (A + 2 * b * INR l)) * (2 * sin b) = sin (A - b + 2 * b * INR n) - sin (A - b).
Proof.
  induction n as [|n IH]; [cbn; change (INR 0) with 0; rewrite Rmult_0_r, Rplus_0_r; ring|].
  cbn [sumR]. rewrite Rmult_plus_distr_r, IH, S_INR.
  replace (A - b + 2 * b * (INR n + 1)) with ((A + 2 * b * INR n) + b) by ring.
  replace (A - b + 2 * b * INR n) with ((A + 2 * b * INR n) - b) by ring. rewrite sin_plus, sin_minus. ring.
Qed.
Lemma sin_period x k : sin (x + 2 * INR k * PI) = sin x. Proof. apply sin_period. Qed.
Lemma harmonic_zero n k A : (0 < k < n)%nat -> sumR n (fun l => cos (A + 2 * PI * INR k * INR l / INR n)) = 0.
Proof.
  intros H. assert (N0 : 0 < INR n) by (apply lt_0_INR; lia). set (b := PI * INR k / INR n).
  rewrite (sumR_ext n _ (fun l => cos (A + 2 * b * INR l))) by (intros; f_equal; unfold b; field; lra).
  pose proof (tele n A b) as T. replace (2 * b * INR n) with (2 * INR k * PI) in T by (unfold b; field; lra). rewrite sin_period in T.
  assert (S0 : 0 < sin b).
  { apply sin_gt_0; unfold b.
    - apply Rdiv_lt_0_compat; [apply Rmult_lt_0_compat; [apply PI_RGT_0|apply lt_0_INR; lia]|exact N0].
    - apply (Rmult_lt_reg_r (INR n)); [exact N0|]. unfold Rdiv. rewrite Rmult_assoc, Rinv_l, Rmult_1_r by lra. apply Rmult_lt_compat_l; [apply PI_RGT_0|apply lt_INR; lia]. }
  apply (Rmult_eq_reg_r (2 * sin b)); [|lra]. lra.
Qed.
Lemma harmonic_zero_neg n k A : (0 < k < n)%nat -> sumR n (fun l => cos (A - 2 * PI * INR k * INR l / INR n)) = 0.
Proof.
  intros H. rewrite <- (harmonic_zero n k (- A) H). apply sumR_ext. intros l _. rewrite <- cos_neg. f_equal. ring.
Qed.
Lemma harmonic_full n h A : (1 <= n)%nat -> sumR n (fun l => cos (A - 2 * PI * INR (h * n) * INR l / INR n)) = INR n * cos A.
Proof.
  intros H. assert (N0 : INR n <> 0) by (apply not_0_INR; lia).
  rewrite (sumR_ext n _ (fun _ => cos A * 1)).
  - rewrite sumR_scal. replace (sumR n (fun _ => 1)) with (INR n); [ring|]. clear. induction n as [|n IH]; [reflexivity|]. rewrite S_INR. cbn. now rewrite <- IH.
  - intros l _. rewrite Rmult_1_r, mult_INR. replace (A - 2 * PI * (INR h * INR n) * INR l / INR n) with (A - 2 * INR (h * l) * PI) by (rewrite mult_INR; field; exact N0).
    rewrite <- (cos_period (A - 2 * INR (h * l) * PI) (h * l)). f_equal. ring.
Qed.
Lemma cc P Q : cos P * cos Q = / 2 * (cos (P - Q) + cos (P + Q)).
Proof. rewrite cos_minus, cos_plus. field. Qed.

(** Two harmonics of frequencies up to n/2. *)
Lemma harmonics_differ n m m' P Q : (m <= n / 2)%nat -> (m' <= n / 2)%nat -> m <> m' ->
  sumR n (fun l => cos (P - 2 * PI * INR m * INR l / INR n) * cos (Q - 2 * PI * INR m' * INR l / INR n)) = 0.
Proof.
  intros Hm Hm' N. assert (D : (2 * (n / 2) <= n)%nat) by (apply Nat.mul_div_le; lia).
  rewrite (sumR_ext n _ (fun l => / 2 * (cos (if le_lt_dec m m' then P - Q + 2 * PI * INR (m' - m) * INR l / INR n else P - Q - 2 * PI * INR (m - m') * INR l / INR n)
     + cos (P + Q - 2 * PI * INR (m + m') * INR l / INR n)))).
  - rewrite sumR_scal, sumR_plus, (harmonic_zero_neg n (m + m')) by lia. destruct (le_lt_dec m m') as [L|L].
    + rewrite harmonic_zero by lia. ring.
    + rewrite harmonic_zero_neg by lia. ring.
  - intros l _. rewrite cc, plus_INR. f_equal. f_equal; [|f_equal; unfold Rdiv; ring].
    destruct (le_lt_dec m m') as [L|L]; f_equal; rewrite minus_INR by lia; unfold Rdiv; ring.
Qed.
Lemma harmonics_same n m P Q : (1 <= n)%nat -> (1 <= m)%nat -> (2 * m < n)%nat ->
  sumR n (fun l => cos (P - 2 * PI * INR m * INR l / INR n) * cos (Q - 2 * PI * INR m * INR l / INR n)) = INR n / 2 * cos (P - Q).
Proof.
  intros Hn Hm H. rewrite (sumR_ext n _ (fun l => / 2 * (cos (P - Q - 2 * PI * INR (0 * n) * INR l / INR n) + cos (P + Q - 2 * PI * INR (m + m) * INR l / INR n)))).
  - rewrite sumR_scal, sumR_plus, (harmonic_zero_neg n (m + m)), harmonic_full by lia. field.
  - intros l _. rewrite cc, plus_INR. f_equal. cbn [Nat.mul]. change (INR 0) with 0. f_equal; f_equal; unfold Rdiv; ring.
Qed.
(** The real harmonics: constant and alternating. *)
Lemma harmonics_real n m P Q : (1 <= n)%nat -> m = 0%nat \/ (2 * m)%nat = n ->
  sumR n (fun l => cos (P - 2 * PI * INR m * INR l / INR n) * cos (Q - 2 * PI * INR m * INR l / INR n)) = INR n * (cos P * cos Q).
Proof.
  intros Hn Hm. assert (E : exists h, (m + m = h * n)%nat) by (destruct Hm as [-> |E]; [exists 0%nat|exists 1%nat]; lia). destruct E as [h E].
  rewrite (sumR_ext n _ (fun l => / 2 * (cos (P - Q - 2 * PI * INR (0 * n) * INR l / INR n) + cos (P + Q - 2 * PI * INR (m + m) * INR l / INR n)))).
  - rewrite sumR_scal, sumR_plus, E, !harmonic_full by lia. rewrite cc. ring.
  - intros l _. rewrite cc, plus_INR. f_equal. cbn [Nat.mul]. change (INR 0) with 0. f_equal; f_equal; unfold Rdiv; ring.
Qed.

(** The kernel as one sum over 0 <= m <= n/2. *)
Definition real_freq (n m : nat) : bool := Nat.eqb m 0 || Nat.eqb (2 * m) n.
Definition hw (n m : nat) : R := if real_freq n m then 1 else 2.
Definition hg (n : nat) (u0 : R) (g : nat -> R) (nyq : R) (m : nat) : R := if Nat.eqb m 0 then u0 else if Nat.eqb (2 * m) n then nyq else g m.
Definition ha (n : nat) (arg : nat -> R) (m : nat) : R := if real_freq n m then 0 else arg m.
Lemma kap_sum n u0 g arg nyq d : (1 <= n)%nat ->
  kap n u0 g arg nyq d = sumR (S (n / 2)) (fun m => hw n m * hg n u0 g nyq m * cos (2 * PI * INR m * d / INR n + ha n arg m)) / INR n.
Proof.
  intros Hn. unfold kap. f_equal. rewrite sumR_shift.
  replace (hw n 0 * hg n u0 g nyq 0 * cos (2 * PI * INR 0 * d / INR n + ha n arg 0)) with u0.
  2:{ unfold hw, hg, ha, real_freq. cbn [Nat.eqb orb]. change (INR 0) with 0. replace (2 * PI * 0 * d / INR n + 0) with 0 by (unfold Rdiv; ring). rewrite cos_0. ring. }
  assert (G : forall k, (k < (n - 1) / 2)%nat -> hw n (S k) * hg n u0 g nyq (S k) * cos (2 * PI * INR (S k) * d / INR n + ha n arg (S k))
     = 2 * (g (S k) * cos (2 * PI * INR (S k) * d / INR n + arg (S k)))).
  { intros k Hk. assert (2 * S k < n)%nat by (apply half_bound; lia). unfold hw, hg, ha, real_freq. destruct (Nat.eqb_spec (S k) 0); [lia|]. destruct (Nat.eqb_spec (2 * S k) n); [lia|]. cbn [orb]. ring. }
  rewrite Rplus_assoc. f_equal. destruct (Nat.even n) eqn:E.
  - destruct (half_even' n Hn E) as (h & A & B & C & D). rewrite B, C in *. replace h with (S (h - 1)) at 2 by lia. cbn [sumR]. rewrite <- sumR_scal. f_equal.
    + apply sumR_ext. intros k Hk. now rewrite G.
    + replace (S (h - 1)) with h by lia. unfold hw, hg, ha, real_freq. destruct (Nat.eqb_spec h 0); [lia|]. destruct (Nat.eqb_spec (2 * h) n); [|lia]. cbn [orb].
      rewrite Rplus_0_r, Rmult_1_l. f_equal. f_equal. rewrite A, mult_INR. change (INR 2) with 2. field. apply not_0_INR. lia.
  - destruct (odd_half n E) as (h & A & B & C). rewrite B, C in *. rewrite Rplus_0_r, <- sumR_scal. apply sumR_ext. intros k Hk. now rewrite G.
Qed.
Lemma sin_pi_nat x : sin (PI * INR x) = 0.
Proof.
  induction x as [|x IH]; [change (INR 0) with 0; now rewrite Rmult_0_r, sin_0|]. rewrite S_INR, Rmult_plus_distr_l, Rmult_1_r, neg_sin, IH. ring.
Qed.

(** Correlation of two kernels over a period. *)
Lemma kap_corr n u0 g arg nyq u0' g' arg' nyq' x y : (1 <= n)%nat ->
  sumR n (fun l => kap n u0 g arg nyq (INR x - INR l) * kap n u0' g' arg' nyq' (INR y - INR l)) =
  sumR (S (n / 2)) (fun m => hw n m * (hg n u0 g nyq m * hg n u0' g' nyq' m) * cos (2 * PI * INR m * (INR x - INR y) / INR n + ha n arg m - ha n arg' m)) / INR n.
Proof.
  intros Hn. assert (N0 : INR n <> 0) by (apply not_0_INR; lia).
  set (P m := 2 * PI * INR m * INR x / INR n + ha n arg m). set (Q m := 2 * PI * INR m * INR y / INR n + ha n arg' m).
  rewrite (sumR_ext n _ (fun l => / INR n * / INR n * sumR (S (n / 2)) (fun m => sumR (S (n / 2)) (fun m' =>
     (hw n m * hg n u0 g nyq m) * (hw n m' * hg n u0' g' nyq' m') *
     (cos (P m - 2 * PI * INR m * INR l / INR n) * cos (Q m' - 2 * PI * INR m' * INR l / INR n)))))).
  2:{ intros l _. rewrite !kap_sum by exact Hn. unfold Rdiv.
      transitivity (/ INR n * / INR n * (sumR (S (n / 2)) (fun m => hw n m * hg n u0 g nyq m * cos (2 * PI * INR m * (INR x - INR l) * / INR n + ha n arg m)) *
        sumR (S (n / 2)) (fun m => hw n m * hg n u0' g' nyq' m * cos (2 * PI * INR m * (INR y - INR l) * / INR n + ha n arg' m)))); [ring|]. f_equal.
      rewrite <- sumR_scal_r. apply sumR_ext. intros m _. rewrite <- sumR_scal. apply sumR_ext. intros m' _. unfold P, Q.
      replace (2 * PI * INR m * INR x / INR n + ha n arg m - 2 * PI * INR m * INR l * / INR n) with (2 * PI * INR m * (INR x - INR l) * / INR n + ha n arg m) by (unfold Rdiv; ring).
      replace (2 * PI * INR m' * INR y / INR n + ha n arg' m' - 2 * PI * INR m' * INR l * / INR n) with (2 * PI * INR m' * (INR y - INR l) * / INR n + ha n arg' m') by (unfold Rdiv; ring).
      ring. }
  rewrite sumR_scal, sumR_swap.
  rewrite (sumR_ext (S (n / 2)) _ (fun m => INR n * (hw n m * (hg n u0 g nyq m * hg n u0' g' nyq' m) * cos (2 * PI * INR m * (INR x - INR y) / INR n + ha n arg m - ha n arg' m)))).
  { rewrite sumR_scal. field. exact N0. }
  intros m Hm. rewrite sumR_swap. rewrite (sumR_one _ _ m).
  - rewrite sumR_scal. destruct (real_freq n m) eqn:RF.
    + assert (R' : m = 0%nat \/ (2 * m)%nat = n) by (unfold real_freq in RF; apply orb_true_iff in RF as [E|E]; apply Nat.eqb_eq in E; auto).
      rewrite harmonics_real by (exact Hn || exact R'). unfold P, Q, hw, ha. rewrite RF. rewrite !Rplus_0_r, !Rminus_0_r.
      replace (cos (2 * PI * INR m * (INR x - INR y) / INR n)) with (cos (2 * PI * INR m * INR x / INR n) * cos (2 * PI * INR m * INR y / INR n)); [ring|].
      replace (2 * PI * INR m * (INR x - INR y) / INR n) with (2 * PI * INR m * INR x / INR n - 2 * PI * INR m * INR y / INR n) by (unfold Rdiv; ring).
      rewrite cos_minus. replace (sin (2 * PI * INR m * INR x / INR n)) with 0; [ring|]. symmetry. destruct R' as [-> |E].
      * change (INR 0) with 0. replace (2 * PI * 0 * INR x / INR n) with 0 by (unfold Rdiv; ring). apply sin_0.
      * rewrite <- (sin_pi_nat x). f_equal. rewrite <- E, mult_INR. change (INR 2) with 2. field. intros Z. apply N0. rewrite <- E, mult_INR, Z. ring.
    + assert (R' : (1 <= m)%nat /\ (2 * m < n)%nat).
      { unfold real_freq in RF. apply orb_false_iff in RF as [E1 E2]. apply Nat.eqb_neq in E1, E2. pose proof (Nat.mul_div_le n 2). lia. }
      rewrite harmonics_same by lia. unfold hw. rewrite RF. unfold P, Q.
      replace (2 * PI * INR m * INR x / INR n + ha n arg m - (2 * PI * INR m * INR y / INR n + ha n arg' m)) with (2 * PI * INR m * (INR x - INR y) / INR n + ha n arg m - ha n arg' m) by (unfold Rdiv; ring).
      field.
  - exact Hm.
  - intros m' Hm' N. rewrite sumR_scal. rewrite harmonics_differ by lia. ring.
Qed.

(** The harmonics resolve the identity. *)
Lemma dirichlet n x y : (x < n)%nat -> (y < n)%nat ->
  sumR (S (n / 2)) (fun m => hw n m * cos (2 * PI * INR m * (INR x - INR y) / INR n)) = if Nat.eqb x y then INR n else 0.
Proof.
  intros Hx Hy. assert (Hn : (1 <= n)%nat) by lia. assert (N0 : INR n <> 0) by (apply not_0_INR; lia).
  set (f m := cos (2 * PI * INR m * (INR x - INR y) / INR n)).
  assert (FU : sumR n f = if Nat.eqb x y then INR n else 0).
  { destruct (Nat.eqb_spec x y) as [-> |N].
    - rewrite (sumR_ext n _ (fun l => cos (0 - 2 * PI * INR (0 * n) * INR l / INR n))); [rewrite harmonic_full by exact Hn; rewrite cos_0; ring|].
      intros i _. unfold f. cbn [Nat.mul]. change (INR 0) with 0. f_equal. unfold Rdiv. ring.
    - destruct (Nat.lt_gt_cases x y) as [C _]. destruct (C N) as [L|L].
      + rewrite <- (harmonic_zero_neg n (y - x) 0) by lia. apply sumR_ext. intros l _. unfold f. f_equal. rewrite minus_INR by lia. unfold Rdiv. ring.
      + rewrite <- (harmonic_zero n (x - y) 0) by lia. apply sumR_ext. intros l _. unfold f. f_equal. rewrite minus_INR by lia. unfold Rdiv. ring. }
  rewrite <- FU. clear FU.
  assert (SY : forall m, (1 <= m)%nat -> (m <= n)%nat -> f (n - m)%nat = f m).
  { intros m H1 H2. unfold f. rewrite minus_INR by exact H2.
    replace (2 * PI * (INR n - INR m) * (INR x - INR y) / INR n) with (2 * INR x * PI - 2 * INR y * PI - 2 * PI * INR m * (INR x - INR y) / INR n) by (field; exact N0).
    set (t := 2 * PI * INR m * (INR x - INR y) / INR n).
    replace (2 * INR x * PI - 2 * INR y * PI - t) with ((- t - 2 * INR y * PI) + 2 * INR x * PI) by ring. rewrite cos_period.
    rewrite <- (cos_period _ y). replace (- t - 2 * INR y * PI + 2 * INR y * PI) with (- t) by ring. apply cos_neg. }
  assert (F0 : f 0%nat = 1) by (unfold f; change (INR 0) with 0; replace (2 * PI * 0 * (INR x - INR y) / INR n) with 0 by (unfold Rdiv; ring); apply cos_0).
  rewrite sumR_shift. change (cos (2 * PI * INR 0 * (INR x - INR y) / INR n)) with (f 0%nat). rewrite F0.
  assert (W0 : hw n 0 = 1) by reflexivity. rewrite W0.
  assert (W : forall k, (k < (n - 1) / 2)%nat -> hw n (S k) * f (S k) = f (S k) + f (n - S k)%nat).
  { intros k Hk. pose proof (half_bound n (S k)). rewrite SY by lia. unfold hw, real_freq. destruct (Nat.eqb_spec (S k) 0); [lia|]. destruct (Nat.eqb_spec (2 * S k) n); [lia|]. cbn [orb]. ring. }
  destruct (Nat.even n) eqn:E.
  - destruct (half_even' n Hn E) as (h & A & B & C & D). rewrite B, C in *. 
    replace (sumR n f) with (sumR (S ((h - 1) + (1 + (h - 1)))) f) by (f_equal; lia). rewrite sumR_shift, F0, Rmult_1_r. f_equal.
    rewrite !sumR_app. cbn [sumR]. replace h with (S (h - 1)) at 1 by lia. cbn [sumR].
    replace (hw n (S (h - 1))) with 1 by (unfold hw, real_freq; destruct (Nat.eqb_spec (2 * S (h - 1)) n); [now rewrite orb_true_r|lia]).
    change (cos (2 * PI * INR (S (h - 1)) * (INR x - INR y) / INR n)) with (f (S (h - 1))).
    rewrite (sumR_ext (h - 1) _ (fun k => f (S k) + f (n - S k)%nat)) by (intros k Hk; apply W; lia). rewrite sumR_plus.
    rewrite (sumR_rev (h - 1) (fun i => f (S (h - 1 + (1 + i))))).
    rewrite (sumR_ext (h - 1) (fun i => f (S (h - 1 + (1 + (h - 1 - 1 - i)))))  (fun k => f (n - S k)%nat)) by (intros i Hi; f_equal; lia).
    rewrite Nat.add_0_r. ring.
  - destruct (odd_half n E) as (h & A & B & C). rewrite B, C in *. 
    replace (sumR n f) with (sumR (S (h + h)) f) by (f_equal; lia). rewrite sumR_shift, F0, Rmult_1_r. f_equal.
    rewrite sumR_app. rewrite (sumR_ext h _ (fun k => f (S k) + f (n - S k)%nat)) by (intros k Hk; apply W; lia). rewrite sumR_plus. f_equal.
    rewrite (sumR_rev h (fun i => f (S (h + i)))). apply sumR_ext. intros i Hi. f_equal. lia.
Qed.
