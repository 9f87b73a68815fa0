(** Facts about the quadrature rules of Quad.v. *)
From Verif Require Import Base Spec Quad.
Open Scope R_scope.

Lemma sumR_ext n f g : (forall i, (i < n)%nat -> f i = g i) -> sumR n f = sumR n g.
Proof.
  induction n as [|n IH]; intros H; simpl; [reflexivity|].
  rewrite IH by (intros i Hi; apply H; lia). rewrite (H n) by lia. reflexivity.
Qed.

Lemma sumR_plus n f g : sumR n (fun i => f i + g i) = sumR n f + sumR n g.
Proof. induction n as [|n IH]; simpl; [lra|rewrite IH; lra]. Qed.

Lemma sumR_scal n c f : sumR n (fun i => c * f i) = c * sumR n f.
Proof. induction n as [|n IH]; simpl; [lra|rewrite IH; lra]. Qed.

Lemma sumR_zero n : sumR n (fun _ => 0) = 0.
Proof. induction n as [|n IH]; simpl; [lra|rewrite IH; lra]. Qed.

Lemma sumR_nonneg n f : (forall i, (i < n)%nat -> 0 <= f i) -> 0 <= sumR n f.
Proof.
  induction n as [|n IH]; intros H; simpl; [lra|].
  assert (0 <= sumR n f) by (apply IH; intros; apply H; lia).
  assert (0 <= f n) by (apply H; lia). lra.
Qed.

Lemma sumR_le n f g : (forall i, (i < n)%nat -> f i <= g i) -> sumR n f <= sumR n g.
Proof.
  induction n as [|n IH]; intros H; simpl; [lra|].
  assert (sumR n f <= sumR n g) by (apply IH; intros; apply H; lia).
  assert (f n <= g n) by (apply H; lia). lra.
Qed.

Lemma sumR_swap n m (f : nat -> nat -> R) :
  sumR n (fun i => sumR m (fun j => f i j)) = sumR m (fun j => sumR n (fun i => f i j)).
Proof.
  induction n as [|n IH]; simpl.
  - symmetry; apply sumR_zero.
  - rewrite IH, <- sumR_plus. reflexivity.
Qed.

(** ** Linearity *)

Lemma triple_plus x0 x1 x2 a0 a1 a2 b0 b1 b2 :
  simpson_triple x0 x1 x2 (a0 + b0) (a1 + b1) (a2 + b2)
  = simpson_triple x0 x1 x2 a0 a1 a2 + simpson_triple x0 x1 x2 b0 b1 b2.
Proof. unfold simpson_triple; ring. Qed.

Lemma triple_scal x0 x1 x2 c a0 a1 a2 :
  simpson_triple x0 x1 x2 (c * a0) (c * a1) (c * a2) = c * simpson_triple x0 x1 x2 a0 a1 a2.
Proof. unfold simpson_triple; ring. Qed.

Lemma last_plus x0 x1 x2 a0 a1 a2 b0 b1 b2 :
  simpson_last x0 x1 x2 (a0 + b0) (a1 + b1) (a2 + b2)
  = simpson_last x0 x1 x2 a0 a1 a2 + simpson_last x0 x1 x2 b0 b1 b2.
Proof. unfold simpson_last; ring. Qed.

Lemma last_scal x0 x1 x2 c a0 a1 a2 :
  simpson_last x0 x1 x2 (c * a0) (c * a1) (c * a2) = c * simpson_last x0 x1 x2 a0 a1 a2.
Proof. unfold simpson_last; ring. Qed.

Lemma basic_plus p f g x :
  basic_simpson p (fun i => f i + g i) x = basic_simpson p f x + basic_simpson p g x.
Proof.
  unfold basic_simpson. rewrite <- sumR_plus. apply sumR_ext; intros; apply triple_plus.
Qed.

Lemma basic_scal p c f x : basic_simpson p (fun i => c * f i) x = c * basic_simpson p f x.
Proof.
  unfold basic_simpson. rewrite <- sumR_scal. apply sumR_ext; intros; apply triple_scal.
Qed.

Lemma simpson_plus n f g x :
  simpson n (fun i => f i + g i) x = simpson n f x + simpson n g x.
Proof.
  unfold simpson. destruct (Nat.even n); [destruct (Nat.eqb n 2)|].
  - ring.
  - rewrite basic_plus, last_plus. ring.
  - apply basic_plus.
Qed.

Lemma simpson_scal n c f x : simpson n (fun i => c * f i) x = c * simpson n f x.
Proof.
  unfold simpson. destruct (Nat.even n); [destruct (Nat.eqb n 2)|].
  - ring.
  - rewrite basic_scal, last_scal. ring.
  - apply basic_scal.
Qed.

Lemma half_even n : Nat.even n = true -> (2 <= n)%nat -> (n = 2 * ((n - 2) / 2) + 2)%nat.
Proof.
  intros He H2. apply Nat.even_spec in He. destruct He as [m ->].
  replace (2 * m - 2)%nat with ((m - 1) * 2)%nat by lia.
  rewrite Nat.div_mul by lia. lia.
Qed.

Lemma half_odd n : Nat.even n = false -> (n = 2 * ((n - 1) / 2) + 1)%nat.
Proof.
  intros He. assert (Ho : Nat.odd n = true) by (unfold Nat.odd; rewrite He; reflexivity).
  apply Nat.odd_spec in Ho. destruct Ho as [m ->].
  replace (2 * m + 1 - 1)%nat with (m * 2)%nat by lia.
  rewrite Nat.div_mul by lia. lia.
Qed.

Lemma simpson_ext n f g x y :
  (1 <= n)%nat ->
  (forall i, (i < n)%nat -> f i = g i) -> (forall i, (i < n)%nat -> x i = y i) ->
  simpson n f x = simpson n g y.
Proof.
  intros Hn Hf Hx. unfold simpson.
  destruct (Nat.even n) eqn:He; [destruct (Nat.eqb n 2) eqn:H2|].
  - apply Nat.eqb_eq in H2; subst. rewrite !Hf, !Hx by lia. reflexivity.
  - apply Nat.eqb_neq in H2.
    assert (Hn2 : (2 <= n)%nat) by (destruct n as [|[|n]]; [lia|discriminate|lia]).
    assert (Hn4 : (4 <= n)%nat).
    { pose proof (half_even n He Hn2). lia. }
    pose proof (half_even n He Hn2) as Hh.
    rewrite !Hf, !Hx by lia. f_equal.
    unfold basic_simpson. apply sumR_ext; intros j Hj.
    rewrite !Hf, !Hx by lia. reflexivity.
  - pose proof (half_odd n He) as Hh.
    unfold basic_simpson. apply sumR_ext; intros j Hj.
    rewrite !Hf, !Hx by lia. reflexivity.
Qed.

Lemma simpson_zero n x : simpson n (fun _ => 0) x = 0.
Proof.
  replace (simpson n (fun _ => 0) x) with (simpson n (fun i => 0 * (fun _ => 0) i) x).
  - rewrite simpson_scal. ring.
  - unfold simpson, basic_simpson, simpson_triple, simpson_last.
    rewrite !Rmult_0_l. reflexivity.
Qed.

Lemma simpson_opp n f x : simpson n (fun i => - f i) x = - simpson n f x.
Proof.
  rewrite <- (Rmult_1_l (simpson n f x)), Ropp_mult_distr_l, <- simpson_scal.
  unfold simpson, basic_simpson.
  destruct (Nat.even n); [destruct (Nat.eqb n 2)|].
  - ring.
  - f_equal; [apply sumR_ext; intros; f_equal; ring|f_equal; ring].
  - apply sumR_ext; intros; f_equal; ring.
Qed.

Lemma simpson_minus n f g x :
  simpson n (fun i => f i - g i) x = simpson n f x - simpson n g x.
Proof.
  unfold Rminus at 2. rewrite <- simpson_opp, <- simpson_plus. reflexivity.
Qed.

(** ** Exactness on quadratics *)

Definition incr (n : nat) (x : nat -> R) : Prop :=
  forall i, (S i < n)%nat -> x i < x (S i).

(** Antiderivative of a + b t + c t^2. *)
Definition prim2 (a b c t : R) : R := a * t + b * t ^ 2 / 2 + c * t ^ 3 / 3.

Lemma triple_exact a b c x0 x1 x2 : x0 < x1 -> x1 < x2 ->
  simpson_triple x0 x1 x2 (a + b * x0 + c * x0 ^ 2) (a + b * x1 + c * x1 ^ 2)
                 (a + b * x2 + c * x2 ^ 2)
  = prim2 a b c x2 - prim2 a b c x0.
Proof.
  intros H0 H1. unfold simpson_triple, prim2. field. split; lra.
Qed.

Lemma last_exact a b c x0 x1 x2 : x0 < x1 -> x1 < x2 ->
  simpson_last x0 x1 x2 (a + b * x0 + c * x0 ^ 2) (a + b * x1 + c * x1 ^ 2)
               (a + b * x2 + c * x2 ^ 2)
  = prim2 a b c x2 - prim2 a b c x1.
Proof.
  intros H0 H1. unfold simpson_last, prim2. field. repeat split; lra.
Qed.

Lemma basic_exact a b c p x :
  (forall i, (i < 2 * p)%nat -> x i < x (S i)) ->
  basic_simpson p (fun i => a + b * x i + c * x i ^ 2) x
  = prim2 a b c (x (2 * p)%nat) - prim2 a b c (x 0%nat).
Proof.
  induction p as [|p IH]; intros H.
  - unfold basic_simpson; simpl. ring.
  - unfold basic_simpson in *. cbn [sumR].
    rewrite IH by (intros i Hi; apply H; lia).
    rewrite triple_exact.
    + replace (2 * S p)%nat with (2 * p + 2)%nat by lia. ring.
    + replace (2 * p + 1)%nat with (S (2 * p)) by lia. apply H; lia.
    + replace (2 * p + 2)%nat with (S (2 * p + 1)) by lia. apply H; lia.
Qed.

Lemma simpson_exact n a b c x :
  (3 <= n)%nat -> incr n x ->
  simpson n (fun i => a + b * x i + c * x i ^ 2) x
  = prim2 a b c (x (n - 1)%nat) - prim2 a b c (x 0%nat).
Proof.
  intros Hn Hi. unfold simpson. destruct (Nat.even n) eqn:He.
  - assert (Hh : (n = 2 * ((n - 2) / 2) + 2)%nat) by (apply half_even; [exact He|lia]).
    destruct (Nat.eqb n 2) eqn:H2; [apply Nat.eqb_eq in H2; lia|].
    rewrite basic_exact by (intros i Hlt; apply Hi; lia).
    rewrite last_exact.
    + replace (2 * ((n - 2) / 2))%nat with (n - 2)%nat by lia. ring.
    + replace (n - 2)%nat with (S (n - 3)) by lia. apply Hi; lia.
    + replace (n - 1)%nat with (S (n - 2)) by lia. apply Hi; lia.
  - pose proof (half_odd n He) as Hh.
    rewrite basic_exact by (intros i Hlt; apply Hi; lia).
    replace (2 * ((n - 1) / 2))%nat with (n - 1)%nat by lia. ring.
Qed.

Lemma simpson_exact_affine2 a b x :
  simpson 2 (fun i => a + b * x i) x = prim2 a b 0 (x 1%nat) - prim2 a b 0 (x 0%nat).
Proof. unfold simpson; simpl. unfold prim2. field. Qed.

(** ** Sign on geometric grids *)

Definition geometric (n : nat) (r : R) (x : nat -> R) : Prop :=
  0 < x 0%nat /\ forall i, (S i < n)%nat -> x (S i) = r * x i.

Lemma geometric_pos n r x i : 0 < r -> geometric n r x -> (i < n)%nat -> 0 < x i.
Proof.
  intros Hr [H0 Hs]. induction i as [|i IH]; intros Hi; [exact H0|].
  rewrite Hs by lia. apply Rmult_lt_0_compat; [exact Hr|apply IH; lia].
Qed.

Lemma geometric_incr n r x : 1 < r -> geometric n r x -> incr n x.
Proof.
  intros Hr G i Hi. pose proof (geometric_pos n r x i ltac:(lra) G ltac:(lia)) as P.
  destruct G as [_ Hs]. rewrite Hs by lia.
  rewrite <- (Rmult_1_l (x i)) at 1. apply Rmult_lt_compat_r; lra.
Qed.

(** Weights of one triple on (t, r t, r^2 t). *)
Lemma triple_geom r t y0 y1 y2 : 1 < r -> 0 < t ->
  simpson_triple t (r * t) (r * (r * t)) y0 y1 y2
  = t * (r - 1) * (1 + r) / 6 *
    (y0 * (2 - r) + y1 * ((1 + r) ^ 2 / r) + y2 * (2 - / r)).
Proof.
  intros Hr Ht. unfold simpson_triple.
  assert (P1 : 0 < t * (r - 1)) by (apply Rmult_lt_0_compat; lra).
  assert (P2 : 0 < r * (t * (r - 1))) by (apply Rmult_lt_0_compat; lra).
  field. repeat split; try lra; apply Rgt_not_eq; lra.
Qed.

Lemma last_geom r t y0 y1 y2 : 1 < r -> 0 < t ->
  simpson_last t (r * t) (r * (r * t)) y0 y1 y2
  = t * (r - 1) * r / 6 *
    (y2 * ((2 * r + 3) / (1 + r)) + y1 * (r + 3) - y0 * (r ^ 2 / (1 + r))).
Proof.
  intros Hr Ht. unfold simpson_last.
  assert (P1 : 0 < t * (r - 1)) by (apply Rmult_lt_0_compat; lra).
  assert (P2 : 0 < r * (t * (r - 1))) by (apply Rmult_lt_0_compat; lra).
  field. repeat split; try lra; apply Rgt_not_eq; lra.
Qed.

Lemma triple_geom_nonneg r t y0 y1 y2 : 1 < r -> r <= 2 -> 0 < t ->
  0 <= y0 -> 0 <= y1 -> 0 <= y2 ->
  0 <= simpson_triple t (r * t) (r * (r * t)) y0 y1 y2.
Proof.
  intros Hr Hr2 Ht H0 H1 H2. rewrite triple_geom by assumption.
  assert (Hinv : / r < 1) by (rewrite <- Rinv_1; apply Rinv_lt_contravar; lra).
  assert (0 <= (1 + r) ^ 2 / r).
  { apply Rmult_le_pos; [apply pow2_ge_0|left; apply Rinv_0_lt_compat; lra]. }
  apply Rmult_le_pos.
  - apply Rmult_le_pos; [|lra]. repeat apply Rmult_le_pos; lra.
  - repeat apply Rplus_le_le_0_compat; apply Rmult_le_pos; lra.
Qed.

(** Last triple plus last-interval correction on (t, rt, r^2 t, r^3 t). *)
Lemma triple_last_nonneg r t y0 y1 y2 y3 : 1 < r -> r <= 2 -> 0 < t ->
  0 <= y0 -> 0 <= y1 -> 0 <= y2 -> 0 <= y3 ->
  0 <= simpson_triple t (r * t) (r * (r * t)) y0 y1 y2
       + simpson_last (r * t) (r * (r * t)) (r * (r * (r * t))) y1 y2 y3.
Proof.
  intros Hr Hr2 Ht H0 H1 H2 H3.
  rewrite triple_geom by assumption.
  rewrite last_geom by (try assumption; apply Rmult_lt_0_compat; lra).
  assert (Hinv : / r < 1) by (rewrite <- Rinv_1; apply Rinv_lt_contravar; lra).
  assert (Hip : 0 < / r) by (apply Rinv_0_lt_compat; lra).
  assert (Hi1 : 0 < / (1 + r)) by (apply Rinv_0_lt_compat; lra).
  replace (t * (r - 1) * (1 + r) / 6 * (y0 * (2 - r) + y1 * ((1 + r) ^ 2 / r) + y2 * (2 - / r))
    + r * t * (r - 1) * r / 6 * (y3 * ((2 * r + 3) / (1 + r)) + y2 * (r + 3) - y1 * (r ^ 2 / (1 + r))))
  with (t * (r - 1) / 6 * (y0 * ((2 - r) * (1 + r))
        + y1 * (((1 + r) ^ 4 - r ^ 5) * (/ r * / (1 + r)))
        + y2 * ((2 - / r) * (1 + r) + r ^ 2 * (r + 3))
        + y3 * (r ^ 2 * ((2 * r + 3) * / (1 + r))))) by (field; lra).
  assert (Hk : 0 <= (1 + r) ^ 4 - r ^ 5).
  { assert (r ^ 4 <= (1 + r) ^ 4) by (apply pow_incr; lra).
    assert (0 <= r ^ 3) by (apply pow_le; lra).
    assert (0 <= r ^ 2) by apply pow2_ge_0.
    assert (r ^ 5 <= 2 * r ^ 4).
    { replace (r ^ 5) with (r * r ^ 4) by ring.
      apply Rmult_le_compat_r; [apply pow_le; lra|lra]. }
    replace ((1 + r) ^ 4) with (r ^ 4 + 4 * r ^ 3 + 6 * r ^ 2 + 4 * r + 1) by ring.
    assert (r ^ 4 <= 2 * r ^ 3).
    { replace (r ^ 4) with (r * r ^ 3) by ring. apply Rmult_le_compat_r; lra. }
    lra. }
  apply Rmult_le_pos.
  - apply Rmult_le_pos; [apply Rmult_le_pos; lra|lra].
  - repeat apply Rplus_le_le_0_compat; apply Rmult_le_pos; try assumption.
    + apply Rmult_le_pos; lra.
    + apply Rmult_le_pos; [exact Hk|]. apply Rmult_le_pos; lra.
    + apply Rplus_le_le_0_compat; apply Rmult_le_pos; try lra. apply pow2_ge_0.
    + apply Rmult_le_pos; [apply pow2_ge_0|]. apply Rmult_le_pos; lra.
Qed.

Lemma simpson_nonneg n r x y :
  (1 <= n)%nat -> 1 < r -> r <= 2 -> geometric n r x ->
  (forall i, (i < n)%nat -> 0 <= y i) -> 0 <= simpson n y x.
Proof.
  intros Hn Hr Hr2 G Hy.
  assert (Hpos : forall i, (i < n)%nat -> 0 < x i)
    by (intros i Hi; apply (geometric_pos n r); [lra|exact G|exact Hi]).
  destruct G as [_ Hs].
  assert (Htrip : forall j, (2 * j + 2 < n)%nat ->
      0 <= simpson_triple (x (2*j)%nat) (x (2*j+1)%nat) (x (2*j+2)%nat)
                          (y (2*j)%nat) (y (2*j+1)%nat) (y (2*j+2)%nat)).
  { intros j Hj.
    replace (2*j+2)%nat with (S (2*j+1)) in * by lia.
    replace (2*j+1)%nat with (S (2*j)) in * by lia.
    rewrite !Hs by lia.
    apply triple_geom_nonneg; try assumption; try apply Hy; try apply Hpos; lia. }
  unfold simpson. destruct (Nat.even n) eqn:He; [destruct (Nat.eqb n 2) eqn:H2|].
  - apply Nat.eqb_eq in H2; subst n.
    rewrite (Hs 0%nat) by lia. pose proof (Hpos 0%nat ltac:(lia)).
    pose proof (Hy 0%nat ltac:(lia)). pose proof (Hy 1%nat ltac:(lia)).
    replace (r * x 0%nat - x 0%nat) with ((r - 1) * x 0%nat) by ring.
    repeat apply Rmult_le_pos; lra.
  - apply Nat.eqb_neq in H2.
    assert (Hn2 : (2 <= n)%nat) by (destruct n as [|[|n]]; [lia|discriminate|lia]).
    pose proof (half_even n He Hn2) as Hh.
    destruct ((n - 2) / 2)%nat as [|p] eqn:Hp; [lia|].
    unfold basic_simpson. cbn [sumR].
    rewrite Rplus_assoc.
    apply Rplus_le_le_0_compat.
    + apply sumR_nonneg; intros j Hj. apply Htrip; lia.
    + replace (n - 3)%nat with (2 * p + 1)%nat by lia.
      replace (n - 2)%nat with (2 * p + 2)%nat by lia.
      replace (n - 1)%nat with (2 * p + 3)%nat by lia.
      replace (x (2 * p + 3)%nat) with (r * (r * (r * x (2 * p)%nat))).
      2:{ replace (2*p+3)%nat with (S (S (S (2*p)))) by lia. rewrite !Hs by lia. reflexivity. }
      replace (x (2 * p + 2)%nat) with (r * (r * x (2 * p)%nat)).
      2:{ replace (2*p+2)%nat with (S (S (2*p))) by lia. rewrite !Hs by lia. reflexivity. }
      replace (x (2 * p + 1)%nat) with (r * x (2 * p)%nat).
      2:{ replace (2*p+1)%nat with (S (2*p)) by lia. rewrite !Hs by lia. reflexivity. }
      apply triple_last_nonneg; try assumption; try apply Hy; try apply Hpos; lia.
  - pose proof (half_odd n He) as Hh.
    unfold basic_simpson. apply sumR_nonneg; intros j Hj. apply Htrip; lia.
Qed.

Lemma simpson_le n r x f g :
  (1 <= n)%nat -> 1 < r -> r <= 2 -> geometric n r x ->
  (forall i, (i < n)%nat -> f i <= g i) -> simpson n f x <= simpson n g x.
Proof.
  intros Hn Hr Hr2 G H.
  assert (0 <= simpson n (fun i => g i - f i) x).
  { apply (simpson_nonneg n r); try assumption. intros i Hi. specialize (H i Hi). lra. }
  rewrite simpson_minus in H0. lra.
Qed.

(** Sharpness: every ratio above 2 has a non-negative integrand with negative integral. *)
Lemma simpson_neg r : 2 < r ->
  forall n x, Nat.odd n = true -> (3 <= n)%nat -> geometric n r x ->
  simpson n (fun i => if Nat.eqb i 0 then 1 else 0) x < 0.
Proof.
  intros Hr n x Ho Hn G.
  assert (Hp0 : 0 < x 0%nat) by apply G. destruct G as [_ Hs].
  unfold simpson. unfold Nat.odd in Ho. destruct (Nat.even n) eqn:He; [discriminate|].
  pose proof (half_odd n He) as Hh. destruct ((n - 1) / 2)%nat as [|p]; [lia|].
  unfold basic_simpson.
  assert (Hsum : forall q, (2 * S q < n)%nat -> sumR (S q) (fun j =>
      simpson_triple (x (2*j)%nat) (x (2*j+1)%nat) (x (2*j+2)%nat)
        (if Nat.eqb (2*j) 0 then 1 else 0) (if Nat.eqb (2*j+1) 0 then 1 else 0)
        (if Nat.eqb (2*j+2) 0 then 1 else 0))
      = simpson_triple (x 0%nat) (x 1%nat) (x 2%nat) 1 0 0).
  { induction q as [|q IH]; intros Hq.
    - simpl. ring.
    - cbn [sumR] in *. rewrite IH by lia.
      replace (2 * S q + 2 =? 0)%nat with false by (symmetry; apply Nat.eqb_neq; lia).
      replace (2 * S q + 1 =? 0)%nat with false by (symmetry; apply Nat.eqb_neq; lia).
      replace (2 * S q =? 0)%nat with false by (symmetry; apply Nat.eqb_neq; lia).
      unfold simpson_triple at 2. ring. }
  rewrite Hsum by lia.
  rewrite (Hs 1%nat), (Hs 0%nat) by lia.
  rewrite triple_geom by lra.
  replace (x 0%nat * (r - 1) * (1 + r) / 6 * (1 * (2 - r) + 0 * ((1 + r) ^ 2 / r) + 0 * (2 - / r)))
    with (- (x 0%nat * ((r - 1) * ((1 + r) * ((r - 2) * / 6))))) by (unfold Rdiv; ring).
  apply Ropp_lt_gt_0_contravar. apply Rlt_gt. repeat apply Rmult_lt_0_compat; lra.
Qed.

(** ** Trapezoid *)

Lemma trap_partial k mass y (w : nat -> R) :
  w 0%nat = (mass 1%nat - mass 0%nat) / 2 ->
  (forall i, (1 <= i)%nat -> (i <= k)%nat -> w i = (mass (i+1)%nat - mass (i-1)%nat) / 2) ->
  sumR (S k) (fun i => y i * w i)
  = trapezoid k y mass + y k * (mass (k+1)%nat - mass k) / 2.
Proof.
  intros H0. induction k as [|k IH]; intros H.
  - simpl. rewrite H0. simpl. field.
  - cbn [sumR]. cbn [sumR] in IH. rewrite IH by (intros i Hi Hk; apply H; lia).
    rewrite (H (S k)) by lia. cbn [trapezoid].
    replace (S k - 1)%nat with k by lia. replace (k + 1)%nat with (S k) by lia. field.
Qed.

Lemma trap_classical n mass w y :
  trap_weights n mass = Ok w -> trap_integrate n w y = trapezoid (n - 1) y mass.
Proof.
  unfold trap_weights. destruct (Nat.leb n 1) eqn:Hn; [discriminate|].
  apply Nat.leb_gt in Hn. intros E; injection E as <-.
  unfold trap_integrate. destruct n as [|[|m]]; [lia|lia|].
  replace (S (S m) - 1)%nat with (S m) by lia.
  replace (S (S m) - 2)%nat with m by lia.
  cbn [sumR trapezoid].
  pose proof (trap_partial m mass y
     (fun i => if Nat.eqb i 0 then (mass 1%nat - mass 0%nat) / 2
               else (mass (i+1)%nat - mass (i-1)%nat) / 2) eq_refl) as Hp.
  rewrite Nat.eqb_refl.
  replace (m + 1)%nat with (S m) in Hp by lia.
  match goal with |- ?A + ?B + ?C = _ => assert (HA : A + B = trapezoid m y mass + y m * (mass (S m) - mass m) / 2) end.
  { rewrite <- Hp.
    - match goal with |- ?L = _ => change L with (sumR (S m) (fun i => y i * (if (i =? S m)%nat then (mass (S m) - mass m) / 2 else if (i =? 0)%nat then (mass 1%nat - mass 0%nat) / 2 else (mass (i + 1)%nat - mass (i - 1)%nat) / 2))) end.
      apply sumR_ext. intros i Hi.
      replace (i =? S m)%nat with false by (symmetry; apply Nat.eqb_neq; lia). reflexivity.
    - intros i H1 H2. replace (i =? 0)%nat with false by (symmetry; apply Nat.eqb_neq; lia). reflexivity. }
  rewrite HA. field.
Qed.

Lemma trapezoid_affine k a b x :
  trapezoid k (fun i => a + b * x i) x = prim2 a b 0 (x k) - prim2 a b 0 (x 0%nat).
Proof.
  induction k as [|k IH]; simpl; [ring|]. rewrite IH. unfold prim2. field.
Qed.

Lemma trapezoid_nonneg k y x :
  (forall i, (i < k)%nat -> x i <= x (S i)) -> (forall i, (i <= k)%nat -> 0 <= y i) ->
  0 <= trapezoid k y x.
Proof.
  induction k as [|k IH]; intros Hx Hy; simpl; [lra|].
  apply Rplus_le_le_0_compat; [apply IH; intros; [apply Hx|apply Hy]; lia|].
  pose proof (Hx k ltac:(lia)). pose proof (Hy k ltac:(lia)). pose proof (Hy (S k) ltac:(lia)).
  unfold Rdiv. repeat apply Rmult_le_pos; lra.
Qed.

Lemma trap_rejects n mass : (exists e, trap_weights n mass = Err e) <-> (n <= 1)%nat.
Proof.
  unfold trap_weights. destruct (Nat.leb n 1) eqn:H.
  - apply Nat.leb_le in H. split; [intros _; exact H|intros _; eexists; reflexivity].
  - apply Nat.leb_gt in H. split; [intros [e E]; discriminate|lia].
Qed.

Lemma trap_int_plus n w f g :
  trap_integrate n w (fun i => f i + g i) = trap_integrate n w f + trap_integrate n w g.
Proof.
  unfold trap_integrate. rewrite <- sumR_plus. apply sumR_ext; intros; ring.
Qed.

Lemma trap_int_scal n w c f :
  trap_integrate n w (fun i => c * f i) = c * trap_integrate n w f.
Proof.
  unfold trap_integrate. rewrite <- sumR_scal. apply sumR_ext; intros; ring.
Qed.

Lemma trap_int_ext n w f g : (forall i, (i < n)%nat -> f i = g i) ->
  trap_integrate n w f = trap_integrate n w g.
Proof. intros H. unfold trap_integrate. apply sumR_ext; intros i Hi; rewrite H by exact Hi; reflexivity. Qed.
