(** Model of src/onepower/ia.py:932-1017  compute_uell_gamma_r_hankel, at one redshift and
    mass.  Definitions only.  The two library transforms are arguments. *)
From Verif Require Import Base Interp FftModel IaModel.
Open Scope R_scope.

(** ia.py:966-976  the function handed to the Hankel transform. *)
Definition hankel_input (rs rvir a b : R) (truncate : bool) (x : R) : R :=
  gamma_r_nfw_profile x rs rvir a b rcore_default truncate * sqrt (x * PI / 2).

(** ia.py:963-979  method 'hankel'.  [ht nu f k] is hankel.HankelTransform(nu, ...).transform(f, k)[0];
    the transform object of multipole ell has nu = ell + 0.5 (ia.py:730-751). *)
Definition uell_hankel (ht : R -> (R -> R) -> R -> R) (ell : nat) (rs c rvir a b : R) (truncate : bool) (k : R) : R :=
  ht (INR ell + / 2) (hankel_input rs rvir a b truncate) k / (sqrt k * mnfw rs c).

(** ia.py:982-990  the radial grid of the method 'fftlog' and its step. *)
Definition uell_n : nat := 512.
Definition uell_r (i : nat) : R := logspace (-8) 8 uell_n i.
Definition uell_dlnr : R := ln (uell_r 1 / uell_r 0).

(** scipy.fft.fhtoffset(dln, mu, initial, bias); [lgi x y] is the imaginary part of
    loggamma(x + i y). *)
Definition fhtoffset (lgi : R -> R -> R) (dln mu initial bias : R) : R :=
  let xp := (mu + 1 + bias) / 2 in
  let xm := (mu + 1 - bias) / 2 in
  let y := PI / (2 * dln) in
  let arg := (ln 2 - initial) / dln + (lgi xp y + lgi xm y) / PI in
  initial + (arg - IZR (np_round arg)) * dln.

(** ia.py:981-1003  method 'fftlog': [idx] is the position of [ell] among the multipoles.
    [fht n a dln mu offset bias] is scipy.fft.fht on an array of length n. *)
Section Fftlog.
  Variables (lgi : R -> R -> R) (fht : nat -> A1 -> R -> R -> R -> R -> A1).
  Definition uell_mu (ell : nat) : R := INR ell + / 2.
  Definition uell_bias (idx : nat) : R := - / 2 * (INR idx + 2).
  Definition uell_offset (idx ell : nat) : R :=
    fhtoffset lgi uell_dlnr (uell_mu ell) (- 2 * ln 10) (uell_bias idx).
  Definition uell_k (idx ell j : nat) : R := exp (uell_offset idx ell) / uell_r (uell_n - 1 - j).
  Definition fft_input (rs rvir a b : R) (truncate : bool) (r : R) : R :=
    gamma_r_nfw_profile r rs rvir a b rcore_default truncate * fpow r (3 / 2) * sqrt (PI / 2).
  Definition uell_table (idx ell : nat) (rs c rvir a b : R) (truncate : bool) (j : nat) : R :=
    fht uell_n (fun i => fft_input rs rvir a b truncate (uell_r i)) uell_dlnr (uell_mu ell)
      (uell_offset idx ell) (uell_bias idx) j / (fpow (uell_k idx ell j) (3 / 2) * mnfw rs c).
  Definition uell_fftlog (idx ell : nat) (rs c rvir a b : R) (truncate : bool) (q : R) : R :=
    interp1d Extrapolate uell_n (uell_k idx ell) (uell_table idx ell rs c rvir a b truncate) q.
End Fftlog.
