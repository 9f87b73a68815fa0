(** Model of the dewiggling code of src/onepower/pk.py.  Definitions only. *)
From Coq Require Import ZArith.
From Verif Require Import Base Quad.
Open Scope R_scope.

(** pk.py:2665-2686  Spectra.sigmaV for one redshift: simpson(power*k, dx=dlnk) is the
    rule on the equally spaced abscissae 0, dlnk, 2 dlnk, ... *)
Definition sigmaV (nk : nat) (k power : A1) : R :=
  let dlnk := ln (k 1%nat / k 0%nat) in
  let sigma := (1 / 2) / (PI * PI) * simpson nk (fun i => power i * k i) (fun i => INR i * dlnk) in
  sqrt (sigma / 3).

(** scipy.ndimage.gaussian_filter1d(input, sigma) with its defaults (order 0, mode
    'reflect', truncate 4): external code, transcribed.  The radius
    int(4 sigma + 0.5) is the integer part of a non-negative number. *)
Definition filter_radius (sigma : R) : nat := Z.to_nat (Int_part (4 * sigma + 1 / 2)).
Definition kernel_raw (sigma : R) (rad i : nat) : R :=
  let x := INR i - INR rad in exp (- (1 / 2) / (sigma * sigma) * (x * x)).
Definition kernel (sigma : R) (rad i : nat) : R :=
  kernel_raw sigma rad i / sumR (2 * rad + 1) (kernel_raw sigma rad).
(** Index of position [p] (0 = [rad] places left of sample 0) under 'reflect'. *)
Definition reflect (n : nat) (p : Z) : nat :=
  let r := Z.modulo p (2 * Z.of_nat n) in
  if Z.ltb r (Z.of_nat n) then Z.to_nat r else Z.to_nat (2 * Z.of_nat n - 1 - r).
Definition gaussian_filter1d (n : nat) (sigma : R) (y : A1) (i : nat) : R :=
  let rad := filter_radius sigma in
  sumR (2 * rad + 1) (fun j =>
    kernel sigma rad j * y (reflect n (Z.of_nat i + Z.of_nat j - Z.of_nat rad))).

(** np.all(x - x[0]): every entry non-zero. *)
Fixpoint all_nonzero (n : nat) (x : A1) : bool :=
  match n with
  | O => true
  | S m => andb (all_nonzero m x) (if Req_EM_T (x m) 0 then false else true)
  end.

(** pk.py:2723  the guard: np.isclose of a boolean with 0.0 is its negation, so the
    guard raises exactly when np.all(...) is True; np.diff(k)[0] raises on fewer than
    two wavenumbers. *)
Definition spacing_guard (nk : nat) (k : A1) : res unit :=
  if Nat.leb nk 1 then Err "IndexError"
  else let d := fun i => (k (S i) - k i) - (k 1%nat - k 0%nat) in
       if all_nonzero (nk - 1) d then Err "ValueError" else Ok tt.

(** pk.py:2692-2734  get_Pk_wiggle for one redshift; [lnt] is the external log of the
    Eisenstein & Hu no-wiggle transfer function (hmf Tk_EH_nowiggle). *)
Definition pk_nowiggle (k : A1) (ns : R) (lnt : R -> R) (i : nat) : R :=
  fpow (k i) ns * (exp (lnt (ln (k i)))) ^ 2.
Definition pk_wiggle (nk : nat) (k p : A1) (ns : R) (lnt : R -> R) (i : nat) : R :=
  let dlnk := ln (k 1%nat / k 0%nat) in
  let sigma := (1 / 4) / dlnk in
  let ratio := fun i => p i / pk_nowiggle k ns lnt i in
  p i - gaussian_filter1d nk sigma ratio i * pk_nowiggle k ns lnt i.

(** pk.py:643-671  dewiggle_plin for one redshift, once the guard has passed. *)
Definition dewiggle_plin (nk : nat) (k p : A1) (ns : R) (lnt : R -> R) (i : nat) : R :=
  let s := sigmaV nk k p in
  p i - (1 - exp (- (k i * s) ^ 2)) * pk_wiggle nk k p ns lnt i.
