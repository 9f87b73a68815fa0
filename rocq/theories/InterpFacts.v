(** Facts about linear interpolation. *)
From Verif Require Import Base Interp QuadFacts.
Open Scope R_scope.

Lemma incr_lt n x i j : incr n x -> (i < j)%nat -> (j < n)%nat -> x i < x j.
Proof.
  intros H Hij Hj. induction j as [|j IH]; [lia|].
  destruct (Nat.eq_dec i j) as [->|Hne]; [apply H; lia|].
  apply Rlt_trans with (x j); [apply IH; lia|apply H; lia].
Qed.

Lemma incr_le n x i j : incr n x -> (i <= j)%nat -> (j < n)%nat -> x i <= x j.
Proof.
  intros H Hij Hj. destruct (Nat.eq_dec i j) as [->|Hne]; [lra|].
  left. apply (incr_lt n); [exact H|lia|exact Hj].
Qed.

(** Number of nodes strictly below q. *)
Lemma searchsorted_count n x q j :
  (j <= n)%nat ->
  (forall i, (i < j)%nat -> x i < q) -> (forall i, (j <= i)%nat -> (i < n)%nat -> q <= x i) ->
  searchsorted n x q = j.
Proof.
  revert j. induction n as [|n IH]; intros j Hj Hb Ha; simpl; [lia|].
  destruct (Nat.eq_dec j (S n)) as [->|Hne].
  - destruct (Rlt_dec (x n) q) as [_|Hn]; [|exfalso; apply Hn, Hb; lia].
    rewrite (IH n); [lia|lia|intros; apply Hb; lia|intros; lia].
  - destruct (Rlt_dec (x n) q) as [Hlt|_].
    + exfalso. specialize (Ha n ltac:(lia) ltac:(lia)). lra.
    + rewrite (IH j); [lia|lia|exact Hb|intros; apply Ha; lia].
Qed.

(** Bracketing: any grid and any query fall in one of the following cases. *)
Lemma bracket n x q : incr n x -> (1 <= n)%nat ->
  q <= x 0%nat \/ x (n - 1)%nat < q \/
  exists j, (S j < n)%nat /\ x j < q /\ q <= x (S j).
Proof.
  intros Hi Hn. induction n as [|n IH]; [lia|].
  destruct (Nat.eq_dec n 0) as [->|Hne].
  - destruct (Rle_dec q (x 0%nat)); [left; assumption|right; left; simpl; lra].
  - destruct (Rlt_dec (x n) q) as [Hlt|Hge]; [right; left; replace (S n - 1)%nat with n by lia; exact Hlt|].
    destruct IH as [H|[H|[j [Hj [H1 H2]]]]]; [intros i Hlt; apply Hi; lia|lia|left; exact H| |].
    + right; right. exists (n - 1)%nat. replace (S (n - 1)) with n by lia.
      split; [lia|]. split; [exact H|lra].
    + right; right. exists j. split; [lia|]. split; assumption.
Qed.

Lemma interp_below n x y q : (2 <= n)%nat -> incr n x -> q <= x 0%nat ->
  interp_lin n x y q
  = (y 1%nat - y 0%nat) / (x 1%nat - x 0%nat) * (q - x 0%nat) + y 0%nat.
Proof.
  intros Hn Hi Hq. unfold interp_lin.
  rewrite (searchsorted_count n x q 0); try lia.
  - unfold clip_idx. replace (Nat.min (Nat.max 1 0) (n - 1)) with 1%nat by lia. reflexivity.
  - intros i _ Hi'. pose proof (incr_le n x 0 i Hi ltac:(lia) Hi'). lra.
Qed.

Lemma interp_above n x y q : (2 <= n)%nat -> incr n x -> x (n - 1)%nat < q ->
  interp_lin n x y q
  = (y (n-1)%nat - y (n-2)%nat) / (x (n-1)%nat - x (n-2)%nat) * (q - x (n-2)%nat) + y (n-2)%nat.
Proof.
  intros Hn Hi Hq. unfold interp_lin.
  rewrite (searchsorted_count n x q n); try lia.
  - unfold clip_idx. replace (Nat.min (Nat.max 1 n) (n - 1)) with (n - 1)%nat by lia.
    replace (n - 1 - 1)%nat with (n - 2)%nat by lia. reflexivity.
  - intros i Hi'. pose proof (incr_le n x i (n-1) Hi ltac:(lia) ltac:(lia)). lra.
Qed.

Lemma interp_in n x y q j : (2 <= n)%nat -> incr n x ->
  (S j < n)%nat -> x j < q -> q <= x (S j) ->
  interp_lin n x y q = (y (S j) - y j) / (x (S j) - x j) * (q - x j) + y j.
Proof.
  intros Hn Hi Hj H1 H2. unfold interp_lin.
  rewrite (searchsorted_count n x q (S j)); try lia.
  - unfold clip_idx. replace (Nat.min (Nat.max 1 (S j)) (n - 1)) with (S j) by lia.
    replace (S j - 1)%nat with j by lia. reflexivity.
  - intros i Hlt. pose proof (incr_le n x i j Hi ltac:(lia) ltac:(lia)). lra.
  - intros i Hge Hlt. pose proof (incr_le n x (S j) i Hi ltac:(lia) Hlt). lra.
Qed.

(** Closed-interval form. *)
Lemma interp_seg n x y q j : (2 <= n)%nat -> incr n x ->
  (S j < n)%nat -> x j <= q -> q <= x (S j) ->
  interp_lin n x y q = (y (S j) - y j) / (x (S j) - x j) * (q - x j) + y j.
Proof.
  intros Hn Hi Hj H1 H2. destruct (Rlt_dec (x j) q) as [Hlt|Hge]; [apply interp_in; assumption|].
  assert (q = x j) by lra. subst q.
  destruct j as [|j].
  - apply interp_below; try assumption; lra.
  - rewrite (interp_in n x y (x (S j)) j); try assumption; try lia; try lra.
    + pose proof (Hi j ltac:(lia)). field; split; [|lra].
      pose proof (Hi (S j) ltac:(lia)). lra.
    + apply Hi; lia.
Qed.

Lemma interp_node n x y i : (2 <= n)%nat -> incr n x -> (i < n)%nat ->
  interp_lin n x y (x i) = y i.
Proof.
  intros Hn Hi Hlt. destruct i as [|i].
  - rewrite interp_below by (try assumption; lra). field.
    pose proof (Hi 0%nat ltac:(lia)). lra.
  - rewrite (interp_in n x y (x (S i)) i); try assumption; try lra.
    + field. pose proof (Hi i ltac:(lia)). lra.
    + apply Hi; lia.
Qed.

Lemma seg_between a b u v q : a < b -> a <= q -> q <= b ->
  Rmin u v <= (v - u) / (b - a) * (q - a) + u <= Rmax u v.
Proof.
  intros Hab H1 H2.
  set (t := (q - a) / (b - a)).
  assert (Ht : 0 <= t <= 1).
  { unfold t, Rdiv. assert (Hi : 0 < / (b - a)) by (apply Rinv_0_lt_compat; lra).
    split; [apply Rmult_le_pos; lra|].
    rewrite <- (Rinv_r (b - a)) by lra. apply Rmult_le_compat_r; lra. }
  replace ((v - u) / (b - a) * (q - a) + u) with (u + t * (v - u)) by (unfold t; field; lra).
  unfold Rmin, Rmax. destruct (Rle_dec u v) as [Huv|Huv].
  - assert (0 <= t * (v - u)) by (apply Rmult_le_pos; lra).
    assert (t * (v - u) <= 1 * (v - u)) by (apply Rmult_le_compat_r; lra). lra.
  - assert (0 <= t * (u - v)) by (apply Rmult_le_pos; lra).
    assert (t * (u - v) <= 1 * (u - v)) by (apply Rmult_le_compat_r; lra).
    assert (t * (v - u) = - (t * (u - v))) by ring. lra.
Qed.

Lemma interp_hull n x y q j : (2 <= n)%nat -> incr n x ->
  (S j < n)%nat -> x j <= q -> q <= x (S j) ->
  Rmin (y j) (y (S j)) <= interp_lin n x y q <= Rmax (y j) (y (S j)).
Proof.
  intros Hn Hi Hj H1 H2. rewrite (interp_seg n x y q j) by assumption.
  apply seg_between; try assumption. apply Hi; exact Hj.
Qed.

Lemma interp_bounds n x y q lo hi : (2 <= n)%nat -> incr n x ->
  x 0%nat <= q -> q <= x (n - 1)%nat ->
  (forall i, (i < n)%nat -> lo <= y i <= hi) -> lo <= interp_lin n x y q <= hi.
Proof.
  intros Hn Hi H0 H1 Hy.
  destruct (bracket n x q Hi ltac:(lia)) as [H|[H|[j [Hj [Ha Hb]]]]].
  - assert (q = x 0%nat) by lra. subst q. rewrite interp_node by (try assumption; lia). apply Hy; lia.
  - lra.
  - pose proof (interp_hull n x y q j Hn Hi Hj ltac:(lra) Hb) as [L U].
    pose proof (Hy j ltac:(lia)). pose proof (Hy (S j) Hj).
    unfold Rmin, Rmax in *. destruct (Rle_dec (y j) (y (S j))); lra.
Qed.

(** The value is always determined by two distinct nodes. *)
Lemma interp_form n x q : (2 <= n)%nat -> incr n x ->
  exists j, (S j < n)%nat /\ x j < x (S j) /\
    forall y, interp_lin n x y q = (y (S j) - y j) / (x (S j) - x j) * (q - x j) + y j.
Proof.
  intros Hn Hi. destruct (bracket n x q Hi ltac:(lia)) as [H|[H|[j [Hj [Ha Hb]]]]].
  - exists 0%nat. split; [lia|]. split; [apply Hi; lia|]. intros y; apply interp_below; assumption.
  - exists (n - 2)%nat. replace (S (n - 2)) with (n - 1)%nat by lia. split; [lia|].
    split; [replace (n - 1)%nat with (S (n - 2)) by lia; apply Hi; lia|].
    intros y; apply interp_above; assumption.
  - exists j. split; [exact Hj|]. split; [apply Hi; exact Hj|].
    intros y; apply interp_in; assumption.
Qed.

Lemma interp_affine n x q a b : (2 <= n)%nat -> incr n x ->
  interp_lin n x (fun i => a + b * x i) q = a + b * q.
Proof.
  intros Hn Hi. destruct (interp_form n x q Hn Hi) as [j [_ [Hlt E]]]. rewrite E. field. lra.
Qed.

Lemma interp_const n x q a : (2 <= n)%nat -> incr n x -> interp_lin n x (fun _ => a) q = a.
Proof.
  intros Hn Hi. destruct (interp_form n x q Hn Hi) as [j [_ [Hlt E]]]. rewrite E. field. lra.
Qed.

Lemma interp_plus n x f g q :
  interp_lin n x (fun i => f i + g i) q = interp_lin n x f q + interp_lin n x g q.
Proof. unfold interp_lin, Rdiv. ring. Qed.

Lemma interp_scal n x c f q : interp_lin n x (fun i => c * f i) q = c * interp_lin n x f q.
Proof. unfold interp_lin, Rdiv. ring. Qed.

Lemma interp_ext n x f g q : (2 <= n)%nat ->
  (forall i, (i < n)%nat -> f i = g i) -> interp_lin n x f q = interp_lin n x g q.
Proof.
  intros Hn H. unfold interp_lin, clip_idx. rewrite !H by lia. reflexivity.
Qed.

Lemma interp_ext_x n x x' f q : (2 <= n)%nat ->
  (forall i, (i < n)%nat -> x i = x' i) -> interp_lin n x f q = interp_lin n x' f q.
Proof.
  intros Hn H.
  assert (E : forall m, (m <= n)%nat -> searchsorted m x q = searchsorted m x' q).
  { induction m as [|m IH]; intros Hm; simpl; [reflexivity|].
    rewrite IH by lia. rewrite H by lia. reflexivity. }
  unfold interp_lin, clip_idx. rewrite E by lia. rewrite !(H (Nat.min _ _)), !(H (_ - 1)%nat) by lia.
  reflexivity.
Qed.

(** ** With fill modes *)

Lemma interp1d_plus fl fl1 fl2 n x f g q :
  (fl = Extrapolate /\ fl1 = Extrapolate /\ fl2 = Extrapolate) \/
  (fl = FillValue 0 /\ fl1 = FillValue 0 /\ fl2 = FillValue 0) \/
  (fl = FillPair 0 0 /\ fl1 = FillPair 0 0 /\ fl2 = FillPair 0 0) ->
  interp1d fl n x (fun i => f i + g i) q = interp1d fl1 n x f q + interp1d fl2 n x g q.
Proof.
  intros [[-> [-> ->]]|[[-> [-> ->]]|[-> [-> ->]]]]; simpl;
    repeat (destruct (Rlt_dec _ _); try ring); apply interp_plus.
Qed.

Lemma interp1d_inside fl n x y q : x 0%nat <= q -> q <= x (n-1)%nat ->
  interp1d fl n x y q = interp_lin n x y q.
Proof.
  intros H0 H1. destruct fl; simpl; [reflexivity| |];
    (destruct (Rlt_dec q (x 0%nat)); [lra|]); (destruct (Rlt_dec (x (n-1)%nat) q); [lra|]); reflexivity.
Qed.

Lemma interp1d_outside v n x y q : q < x 0%nat \/ x (n-1)%nat < q ->
  interp1d (FillValue v) n x y q = v.
Proof.
  intros H. simpl. destruct (Rlt_dec q (x 0%nat)); [reflexivity|].
  destruct (Rlt_dec (x (n-1)%nat) q); [reflexivity|]. destruct H; contradiction.
Qed.

Lemma interp1d_ext fl n x f g q : (2 <= n)%nat ->
  (forall i, (i < n)%nat -> f i = g i) -> interp1d fl n x f q = interp1d fl n x g q.
Proof.
  intros Hn H. destruct fl; simpl; rewrite (interp_ext n x f g q Hn H); reflexivity.
Qed.

Lemma finite_max n (f : nat -> R) : exists M, forall i, (i < n)%nat -> f i <= M.
Proof.
  induction n as [|k [M IH]].
  - exists 0. intros; lia.
  - exists (Rmax M (f k)). intros i Hi. destruct (Nat.eq_dec i k) as [->|Hne].
    + apply Rmax_r.
    + apply Rle_trans with M; [apply IH; lia|apply Rmax_l].
Qed.

Lemma interp_nonneg n x y q : (2 <= n)%nat -> incr n x ->
  x 0%nat <= q -> q <= x (n - 1)%nat ->
  (forall i, (i < n)%nat -> 0 <= y i) -> 0 <= interp_lin n x y q.
Proof.
  intros Hn Hi H0 H1 Hy. destruct (finite_max n y) as [M HM].
  apply (interp_bounds n x y q 0 M); try assumption. intros i Hlt. split; auto.
Qed.

Lemma interp_lincomb n x a b f g q :
  interp_lin n x (fun i => a * f i + b * g i) q = a * interp_lin n x f q + b * interp_lin n x g q.
Proof. unfold interp_lin, Rdiv. ring. Qed.

Lemma interp1d_pair a b n x y q :
  (q < x 0%nat -> interp1d (FillPair a b) n x y q = a) /\
  (x 0%nat <= q -> x (n-1)%nat < q -> interp1d (FillPair a b) n x y q = b).
Proof.
  simpl. split.
  - intros H. destruct (Rlt_dec q (x 0%nat)); [reflexivity|lra].
  - intros H0 H1. destruct (Rlt_dec q (x 0%nat)); [lra|].
    destruct (Rlt_dec (x (n-1)%nat) q); [reflexivity|lra].
Qed.

Lemma interp1d_strict_err n x y q :
  (exists e, interp1d_strict n x y q = Err e) <-> (q < x 0%nat \/ x (n-1)%nat < q).
Proof.
  unfold interp1d_strict. destruct (Rlt_dec q (x 0%nat)) as [H|H].
  - split; [intros _; left; exact H|intros _; eexists; reflexivity].
  - destruct (Rlt_dec (x (n-1)%nat) q) as [H1|H1].
    + split; [intros _; right; exact H1|intros _; eexists; reflexivity].
    + split; [intros [e E]; discriminate|intros [E|E]; contradiction].
Qed.

Lemma interp_chord n x y q j : (2 <= n)%nat -> incr n x ->
  (S j < n)%nat -> x j <= q -> q <= x (S j) ->
  (interp_lin n x y q - y j) * (x (S j) - x j) = (y (S j) - y j) * (q - x j).
Proof.
  intros Hn Hi Hj H1 H2. rewrite (interp_seg n x y q j) by assumption.
  pose proof (Hi j Hj). field. lra.
Qed.
