(** Quadrature rules used by onepower.  Model definitions only. *)
From Verif Require Import Base.
Open Scope R_scope.

(** scipy.integrate._basic_simpson on irregular samples: the parabola through
    three consecutive points integrated over the two intervals.
    External code (scipy), transcribed; used by every [simpson] call in
    src/onepower/hod.py and src/onepower/pk.py. *)
Definition simpson_triple (x0 x1 x2 y0 y1 y2 : R) : R :=
  let h0 := x1 - x0 in
  let h1 := x2 - x1 in
  let hsum := h0 + h1 in
  hsum / 6 * (y0 * (2 - h1 / h0) + y1 * (hsum * hsum / (h0 * h1)) + y2 * (2 - h0 / h1)).

(** Sum over [p] consecutive triples starting at indices 0, 2, 4, ... *)
Definition basic_simpson (p : nat) (y x : nat -> R) : R :=
  sumR p (fun j => simpson_triple (x (2*j)%nat) (x (2*j+1)%nat) (x (2*j+2)%nat)
                                  (y (2*j)%nat) (y (2*j+1)%nat) (y (2*j+2)%nat)).

(** Correction for the last interval when the number of samples is even
    (scipy.integrate.simpson, Cartwright 2017). *)
Definition simpson_last (x0 x1 x2 y0 y1 y2 : R) : R :=
  let h0 := x1 - x0 in
  let h1 := x2 - x1 in
  let alpha := (2 * h1 ^ 2 + 3 * h0 * h1) / (6 * (h1 + h0)) in
  let beta := (h1 ^ 2 + 3 * h0 * h1) / (6 * h0) in
  let eta := h1 ^ 3 / (6 * h0 * (h0 + h1)) in
  alpha * y2 + beta * y1 - eta * y0.

(** scipy.integrate.simpson(y, x=x) for [n] samples.  Samples are given as index
    functions; [n = 0] is an error in scipy and is excluded by the theorems. *)
Definition simpson (n : nat) (y x : nat -> R) : R :=
  if Nat.even n then
    if Nat.eqb n 2 then (1/2) * (x 1%nat - x 0%nat) * (y 1%nat + y 0%nat)
    else basic_simpson ((n - 2) / 2) y x
         + simpson_last (x (n-3)%nat) (x (n-2)%nat) (x (n-1)%nat)
                        (y (n-3)%nat) (y (n-2)%nat) (y (n-1)%nat)
  else basic_simpson ((n - 1) / 2) y x.

(** src/onepower/pk.py:1392-1400  Spectra._trapezoidal_weights.
    [np.empty_like] followed by the three slice assignments, in order; the later
    ones overwrite.  One or zero masses raise an IndexError on mass[1] (n = 1) or
    on w[0] (n = 0). *)
Definition trap_weights (n : nat) (mass : nat -> R) : res (nat -> R) :=
  if Nat.leb n 1 then Err "IndexError"
  else Ok (fun i =>
    if Nat.eqb i (n - 1) then (mass (n-1)%nat - mass (n-2)%nat) / 2
    else if Nat.eqb i 0 then (mass 1%nat - mass 0%nat) / 2
    else (mass (i+1)%nat - mass (i-1)%nat) / 2).

(** src/onepower/pk.py:1402-1406  Spectra.trapezoidal_integrator: contraction of the
    last axis with the weights (the [x] argument is ignored by the code). *)
Definition trap_integrate (n : nat) (w y : nat -> R) : R := sumR n (fun i => y i * w i).
