(** Properties of the alignment transforms u_ell (C83). *)
From Coquelicot Require Import Coquelicot.
From Verif Require Import Base Spec Interp FftModel IaModel UellModel UellSpec IaFacts IaFacts2 IaFacts3 UellFacts.
Open Scope R_scope.

(** C83 *)
Theorem C83_hankel_method_is_the_bessel_moment : forall ht ell J X rs c rvir a b t k v,
  hankel_law ht (INR ell + / 2) J X -> 0 < X -> 0 < k ->
  bessel_moment J rs rvir a b t X k v -> uell_hankel ht ell rs c rvir a b t k = v / mnfw rs c.
Proof. exact hankel_moment. Qed.
Print Assumptions C83_hankel_method_is_the_bessel_moment.

Theorem C83_fftlog_method_is_the_bessel_moment : forall fht lgi idx ell J X rs c rvir a b t j v,
  0 < X -> (j < uell_n)%nat -> fht_exact fht lgi idx ell J rs rvir a b t X j ->
  bessel_moment J rs rvir a b t X (uell_k lgi idx ell j) v ->
  uell_fftlog lgi fht idx ell rs c rvir a b t (uell_k lgi idx ell j) = v / mnfw rs c.
Proof. exact fftlog_moment. Qed.
Print Assumptions C83_fftlog_method_is_the_bessel_moment.

Theorem C83_methods_agree : forall ht fht lgi idx ell J X rs c rvir a b t j v, 0 < X -> (j < uell_n)%nat ->
  hankel_law ht (INR ell + / 2) J X -> fht_exact fht lgi idx ell J rs rvir a b t X j ->
  bessel_moment J rs rvir a b t X (uell_k lgi idx ell j) v ->
  uell_fftlog lgi fht idx ell rs c rvir a b t (uell_k lgi idx ell j)
  = uell_hankel ht ell rs c rvir a b t (uell_k lgi idx ell j).
Proof. exact methods_agree. Qed.
Print Assumptions C83_methods_agree.

Theorem C83_fftlog_between_its_nodes : forall fht lgi idx ell J X rs c rvir a b t j v w q,
  0 < X -> (S j < uell_n)%nat ->
  fht_exact fht lgi idx ell J rs rvir a b t X j -> fht_exact fht lgi idx ell J rs rvir a b t X (S j) ->
  bessel_moment J rs rvir a b t X (uell_k lgi idx ell j) v ->
  bessel_moment J rs rvir a b t X (uell_k lgi idx ell (S j)) w ->
  uell_k lgi idx ell j <= q <= uell_k lgi idx ell (S j) ->
  between (v / mnfw rs c) (w / mnfw rs c) (uell_fftlog lgi fht idx ell rs c rvir a b t q).
Proof. exact fftlog_between. Qed.
Print Assumptions C83_fftlog_between_its_nodes.

(** The wavenumbers of the alignment tables lie inside every multipole's FFTLog grid. *)
Theorem C83_wavenumbers_inside_the_grid : forall lgi idx ell fftlog nk i,
  (2 <= ia_nk fftlog nk)%nat -> (i < ia_nk fftlog nk)%nat ->
  uell_k lgi idx ell 0 < ia_k_vec fftlog nk i < uell_k lgi idx ell (uell_n - 1).
Proof. exact k_vec_inside. Qed.
Print Assumptions C83_wavenumbers_inside_the_grid.

Theorem C83_grids_are_reciprocal : forall lgi idx ell j, (j < uell_n)%nat ->
  uell_k lgi idx ell j * uell_r (uell_n - 1 - j) = exp (uell_offset lgi idx ell).
Proof. exact k_reciprocal. Qed.
Print Assumptions C83_grids_are_reciprocal.

Theorem C83_grid_step : forall lgi idx ell j, (S j < uell_n)%nat ->
  ln (uell_k lgi idx ell (S j) / uell_k lgi idx ell j) = uell_dlnr.
Proof. exact k_step. Qed.
Print Assumptions C83_grid_step.

Theorem C83_bias_in_the_convergence_strip : forall idx ell L, nth_error (ell_values L) idx = Some ell ->
  0 < uell_mu ell + 1 + uell_bias idx /\ 0 < uell_mu ell + 1 - uell_bias idx /\ uell_bias idx < / 2.
Proof. exact bias_strip. Qed.
Print Assumptions C83_bias_in_the_convergence_strip.

Theorem C83_bounded_by_the_shear_cap : forall ht ell J X rs c a b k v, 0 < rs -> 0 < c -> 0 <= a -> 0 < k -> c * rs <= X ->
  hankel_law ht (INR ell + / 2) J X -> (forall x, 0 < x -> Rabs (spherical J x) <= 1) ->
  bessel_moment J rs (c * rs) a b true (c * rs) k v ->
  Rabs (uell_hankel ht ell rs c (c * rs) a b true k) <= 3 / (40 * PI).
Proof. exact uell_bound. Qed.
Print Assumptions C83_bounded_by_the_shear_cap.

Theorem C83_flat_shear_factors : forall ht ell J X rs c a k lo hi v, 0 < rs -> 0 < c -> 0 <= a -> 0 < k -> c * rs <= X ->
  hankel_law ht (INR ell + / 2) J X -> (forall x, 0 < x < k * (c * rs) -> lo <= spherical J x <= hi) ->
  bessel_moment J rs (c * rs) a 0 true (c * rs) k v ->
  Rmin a (3 / 10) / (4 * PI) * lo <= uell_hankel ht ell rs c (c * rs) a 0 true k <= Rmin a (3 / 10) / (4 * PI) * hi.
Proof. exact uell_flat. Qed.
Print Assumptions C83_flat_shear_factors.

Theorem C83_proportional_to_amplitude_below_the_cap : forall ht ell J X rs c rvir a b t k v s,
  0 < X -> 0 < k -> 0 < rvir -> b <= 0 -> 0 <= a -> 0 <= s ->
  hankel_law ht (INR ell + / 2) J X -> bessel_moment J rs rvir a b t X k v ->
  a * fpow (rcore_default / rvir) b <= 3 / 10 -> s * a * fpow (rcore_default / rvir) b <= 3 / 10 ->
  uell_hankel ht ell rs c rvir (s * a) b t k = s * uell_hankel ht ell rs c rvir a b t k.
Proof. exact amplitude_linear. Qed.
Print Assumptions C83_proportional_to_amplitude_below_the_cap.

(** Flat shear 0.01, scale radius 0.2, concentration 5, and the transform whose spherical kernel is 1. *)
Example C83_case :
  hankel_law (exact_ht unitJ 1) (INR 2 + / 2) unitJ 1 /\
  bessel_moment unitJ (/ 5) (5 * / 5) (/ 100) 0 true (5 * / 5) 3 (/ 100 * (mnfw (/ 5) 5 / (4 * PI))) /\
  uell_hankel (exact_ht unitJ 1) 2 (/ 5) 5 1 (/ 100) 0 true 3 = / 100 / (4 * PI) /\
  nth_error (ell_values 6) 2 = Some 4%nat.
Proof.
  pose proof PI_RGT_0. pose proof (mnfw_pos (/ 5) 5 ltac:(lra) ltac:(lra)) as Hm.
  pose proof (exact_ht_law unitJ 1 (INR 2 + / 2)) as HT.
  pose proof (unit_moment (/ 5) 5 (/ 100) 3 ltac:(lra) ltac:(lra) ltac:(lra) ltac:(lra)) as HM.
  split; [exact HT|split; [exact HM|split; [|reflexivity]]].
  replace (5 * / 5) with 1 in HM by field.
  rewrite (hankel_moment _ 2 unitJ 1 _ 5 _ _ _ _ 3 _ HT ltac:(lra) ltac:(lra) HM). field. split; lra.
Qed.
