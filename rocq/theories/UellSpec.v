(** Vocabulary of the alignment transform properties. *)
From Coquelicot Require Import Coquelicot.
From Verif Require Import Base IaModel UellModel.
Open Scope R_scope.

(** Spherical Bessel function of the Bessel function J of half-integer order. *)
Definition spherical (J : R -> R) (x : R) : R := sqrt (PI / (2 * x)) * J x.

(** v is the moment the alignment model asks for: the integral of shear profile times NFW
    density with the spherical Bessel function, on radii up to X. *)
Definition bessel_moment (J : R -> R) (rs rvir a b : R) (truncate : bool) (X k v : R) : Prop :=
  is_RInt (fun r => gamma_r_nfw_profile r rs rvir a b rcore_default truncate * r ^ 2 * spherical J (k * r)) 0 X v.

(** hankel.HankelTransform computes the integral of f(r) J_nu(k r) r (on radii up to X). *)
Definition hankel_law (ht : R -> (R -> R) -> R -> R) (nu : R) (J : R -> R) (X : R) : Prop :=
  forall f k v, 0 < k -> is_RInt (fun r => f r * J (k * r) * r) 0 X v -> ht nu f k = v.

(** scipy.fft.fht approximates the integral of f(r) J_mu(k r) k; exact on this input. *)
Definition fht_exact (fht : nat -> A1 -> R -> R -> R -> R -> A1) (lgi : R -> R -> R) (idx ell : nat) (J : R -> R)
  (rs rvir a b : R) (truncate : bool) (X : R) (j : nat) : Prop :=
  forall v, is_RInt (fun r => fft_input rs rvir a b truncate r * J (uell_k lgi idx ell j * r) * uell_k lgi idx ell j) 0 X v ->
    fht uell_n (fun i => fft_input rs rvir a b truncate (uell_r i)) uell_dlnr (uell_mu ell)
      (uell_offset lgi idx ell) (uell_bias idx) j = v.
