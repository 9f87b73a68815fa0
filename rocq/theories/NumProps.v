(** C01-C04: the numerical rules every observable is computed with. *)
From Coquelicot Require Import Coquelicot.
From Verif Require Import Base Spec Quad Interp QuadFacts InterpFacts NumFacts.
Open Scope R_scope.

(** C01 *)
Theorem C01_simpson_linear : forall n a b (f g x : nat -> R),
  simpson n (fun i => a * f i + b * g i) x = a * simpson n f x + b * simpson n g x.
Proof. exact simpson_lin. Qed.
Print Assumptions C01_simpson_linear.

Theorem C01_simpson_exact_parabola : forall n f (x : nat -> R),
  (3 <= n)%nat -> increasing n x -> is_parabola f ->
  simpson n (fun i => f (x i)) x = RInt f (x 0%nat) (x (n - 1)%nat).
Proof. exact simpson_RInt. Qed.
Print Assumptions C01_simpson_exact_parabola.

Theorem C01_simpson_two_points_exact_affine : forall f (x : nat -> R), is_affine f ->
  simpson 2 (fun i => f (x i)) x = RInt f (x 0%nat) (x 1%nat).
Proof. exact simpson2_RInt. Qed.
Print Assumptions C01_simpson_two_points_exact_affine.

Example C01_irregular_grid :
  increasing 4 (fun i => INR i ^ 2) /\ is_parabola (fun t => 1 - 2 * t + 3 * t ^ 2).
Proof.
  split.
  - intros i Hi. assert (H : (i = 0 \/ i = 1 \/ i = 2)%nat) by lia.
    destruct H as [->|[->| ->]]; simpl; lra.
  - exists 1, (-2), 3. intros t. ring.
Qed.

(** C02 *)
Theorem C02_integral_nonneg_on_log_uniform_grid : forall n r (x y : nat -> R),
  (1 <= n)%nat -> 1 < r -> r <= 2 -> log_uniform n r x ->
  (forall i, (i < n)%nat -> 0 <= y i) -> 0 <= simpson n y x.
Proof. exact simpson_nonneg. Qed.
Print Assumptions C02_integral_nonneg_on_log_uniform_grid.

Theorem C02_integral_monotone : forall n r (x f g : nat -> R),
  (1 <= n)%nat -> 1 < r -> r <= 2 -> log_uniform n r x ->
  (forall i, (i < n)%nat -> f i <= g i) -> simpson n f x <= simpson n g x.
Proof. exact simpson_le. Qed.
Print Assumptions C02_integral_monotone.

(** For every ratio above 2 and every odd size the bound fails: a non-negative
    integrand (one non-zero sample) has a negative integral. *)
Theorem C02_coarse_grid_refuted : forall r, 2 < r ->
  forall n (x : nat -> R), Nat.odd n = true -> (3 <= n)%nat -> log_uniform n r x ->
  simpson n (fun i => if Nat.eqb i 0 then 1 else 0) x < 0.
Proof. exact simpson_neg. Qed.
Print Assumptions C02_coarse_grid_refuted.

Example C02_grid : log_uniform 5 2 (fun i => 2 ^ i) /\ log_uniform 3 3 (fun i => 3 ^ i).
Proof. split; split; simpl; try lra; intros; lra. Qed.

(** C03 *)
Theorem C03_fixed_weights_are_trapezoid : forall n mass w y,
  trap_weights n mass = Ok w -> trap_integrate n w y = trapezoid (n - 1) y mass.
Proof. exact trap_classical. Qed.
Print Assumptions C03_fixed_weights_are_trapezoid.

Theorem C03_exact_for_affine : forall n mass w f,
  trap_weights n mass = Ok w -> is_affine f ->
  trap_integrate n w (fun i => f (mass i)) = RInt f (mass 0%nat) (mass (n - 1)%nat).
Proof. exact trap_affine_RInt. Qed.
Print Assumptions C03_exact_for_affine.

Theorem C03_weights_sum_to_range : forall n mass w, trap_weights n mass = Ok w ->
  sumR n w = mass (n - 1)%nat - mass 0%nat.
Proof. exact trap_weight_sum. Qed.
Print Assumptions C03_weights_sum_to_range.

Theorem C03_nonneg : forall n mass w y, trap_weights n mass = Ok w -> increasing n mass ->
  (forall i, (i < n)%nat -> 0 <= y i) -> 0 <= trap_integrate n w y.
Proof. exact trap_nonneg. Qed.
Print Assumptions C03_nonneg.

Theorem C03_rejects_short_grids : forall n mass,
  (exists e, trap_weights n mass = Err e) <-> (n <= 1)%nat.
Proof. exact trap_rejects. Qed.
Print Assumptions C03_rejects_short_grids.

Example C03_weights_exist : exists w, trap_weights 3 (fun i => INR i) = Ok w /\ w 0%nat = 1 / 2.
Proof. eexists. split; [reflexivity|]. simpl. lra. Qed.

(** C04 *)
Theorem C04_node : forall n x y i, (2 <= n)%nat -> increasing n x -> (i < n)%nat ->
  interp_lin n x y (x i) = y i.
Proof. exact interp_node. Qed.
Print Assumptions C04_node.

Theorem C04_between_neighbours : forall n x y q j, (2 <= n)%nat -> increasing n x ->
  (S j < n)%nat -> x j <= q -> q <= x (S j) ->
  between (y j) (y (S j)) (interp_lin n x y q).
Proof. exact interp_hull. Qed.
Print Assumptions C04_between_neighbours.

Theorem C04_exact_for_affine : forall n x q a b, (2 <= n)%nat -> increasing n x ->
  interp_lin n x (fun i => a + b * x i) q = a + b * q.
Proof. exact interp_affine. Qed.
Print Assumptions C04_exact_for_affine.

Theorem C04_linear_in_data : forall n x a b f g q,
  interp_lin n x (fun i => a * f i + b * g i) q = a * interp_lin n x f q + b * interp_lin n x g q.
Proof. exact interp_lincomb. Qed.
Print Assumptions C04_linear_in_data.

Theorem C04_fill_outside : forall v n x y q, q < x 0%nat \/ x (n-1)%nat < q ->
  interp1d (FillValue v) n x y q = v.
Proof. exact interp1d_outside. Qed.
Print Assumptions C04_fill_outside.

Theorem C04_fill_pair_outside : forall a b n x y q,
  (q < x 0%nat -> interp1d (FillPair a b) n x y q = a) /\
  (x 0%nat <= q -> x (n-1)%nat < q -> interp1d (FillPair a b) n x y q = b).
Proof. exact interp1d_pair. Qed.
Print Assumptions C04_fill_pair_outside.

Theorem C04_fill_irrelevant_inside : forall fl n x y q, x 0%nat <= q -> q <= x (n-1)%nat ->
  interp1d fl n x y q = interp_lin n x y q.
Proof. exact interp1d_inside. Qed.
Print Assumptions C04_fill_irrelevant_inside.

Theorem C04_strict_raises_outside : forall n x y q,
  (exists e, interp1d_strict n x y q = Err e) <-> (q < x 0%nat \/ x (n-1)%nat < q).
Proof. exact interp1d_strict_err. Qed.
Print Assumptions C04_strict_raises_outside.

(** In between nodes the value is the chord through the two neighbours. *)
Theorem C04_chord : forall n x y q j, (2 <= n)%nat -> increasing n x ->
  (S j < n)%nat -> x j <= q -> q <= x (S j) ->
  (interp_lin n x y q - y j) * (x (S j) - x j) = (y (S j) - y j) * (q - x j).
Proof. exact interp_chord. Qed.
Print Assumptions C04_chord.

Example C04_grid : increasing 3 (fun i => INR i / 10) /\ (INR 1 / 10 <= 15 / 100 <= INR 2 / 10).
Proof. split; [intros i Hi; rewrite S_INR; lra|simpl; lra]. Qed.
