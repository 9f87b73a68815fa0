(** Vocabulary for the fast Hankel transform. *)
From Verif Require Import Base FftModel.
Open Scope R_scope.

(** A logarithmic grid of n points with centre c: c exp((i - (n-1)/2) dlnr), i = 0 .. n-1. *)
Definition log_grid (n : nat) (c dlnr : R) (i : nat) : R := c * exp ((INR i - (INR n - 1) / 2) * dlnr).
(** The frequencies with which a log-periodic function of period n dlnr can oscillate (half of them). *)
Definition mode_freq (n : nat) (dlnr : R) (m : nat) : R := INR m * (PI / (INR n * dlnr)).

Section Gamma.
  Variables lgr lgi : R -> R -> R.
  (** Modulus and argument of U_mu(q + 2 i y) = 2^(q + 2 i y) Gamma((mu+1+q)/2 + i y) / Gamma((mu+1-q)/2 - i y),
      the Mellin transform of the Bessel function of order mu. *)
  Definition bessel_gain (mu q y : R) : R := exp (ln 2 * q + lgr ((mu + 1 + q) / 2) y - lgr ((mu + 1 - q) / 2) y).
  Definition bessel_phase (mu q y : R) : R := 2 * ln 2 * y + lgi ((mu + 1 + q) / 2) y + lgi ((mu + 1 - q) / 2) y.
  (** The low-ringing condition: kr^(-i pi/dlnr) U_mu(q + i pi/dlnr) is real. *)
  Definition low_ringing (mu q dlnr kr : R) : Prop :=
    exists z : Z, bessel_phase mu q (PI / (2 * dlnr)) - PI / dlnr * ln kr = IZR z * PI.
  (** The continuous kernel, sampled at the n frequencies: it depends on r and k through ln (k r) only. *)
  Definition bessel_kernel (n : nat) (mu dlnr : R) (x : R) : R :=
    (1 + sumR (n / 2) (fun k => (if Nat.eqb (2 * S k) n then 1 else 2)
       * cos (bessel_phase mu 0 (mode_freq n dlnr (S k)) - 2 * mode_freq n dlnr (S k) * x))) / INR n.
End Gamma.
(** The gamma functions of the zero frequency have no pole. *)
Definition no_pole (mu q : R) : Prop := forall n : nat, (mu + 1 + q) / 2 <> - INR n /\ (mu + 1 - q) / 2 <> - INR n.
(** On the real axis the imaginary part of the logarithm of the gamma function is a multiple of pi. *)
Definition real_axis (lgi : R -> R -> R) : Prop := forall x, exists z : Z, lgi x 0 = IZR z * PI.
