(** Vocabulary of the quadrature projection. *)
From Coquelicot Require Import Coquelicot.
From Verif Require Import Base UellSpec.
Open Scope R_scope.

(** v is the integral of k P(k) J(k rp) on wavenumbers up to K; v/(2 pi) is the projected correlation. *)
Definition projected (J P : R -> R) (K rp v : R) : Prop := is_RInt (fun k => k * P k * J (k * rp)) 0 K v.
(** The same with one power of k more. *)
Definition projected_k (J P : R -> R) (K rp v : R) : Prop := is_RInt (fun k => k ^ 2 * P k * J (k * rp)) 0 K v.
(** A transform without the factor r: the integral of f(x) J(x), as hankel's transform was in its early releases. *)
Definition plain_law (ht : R -> (R -> R) -> R -> R) (nu : R) (J : R -> R) (X : R) : Prop :=
  forall f v, is_RInt (fun x => f x * J x) 0 X v -> ht nu f 1 = v.
