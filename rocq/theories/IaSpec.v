(** Vocabulary for the statements about intrinsic alignments. *)
From Coq Require Import ZArith.
From Coquelicot Require Import Coquelicot.
From Verif Require Import Base Quad Interp Spec IaModel.
Open Scope R_scope.

(** What is used of the gamma function. *)
Definition gamma_function (G : R -> R) : Prop :=
  G 1 = 1 /\ G (1 / 2) = sqrt PI /\ forall x, 0 < x -> G (x + 1) = x * G x.

(** Legendre polynomials, by Bonnet's recursion: (P_l, P_(l+1)). *)
Fixpoint legendre2 (l : nat) (y : R) : R * R :=
  match l with
  | O => (1, y)
  | S k => let (p, q) := legendre2 k y in (q, ((2 * INR k + 3) * y * q - (INR k + 1) * p) / (INR k + 2))
  end.
Definition legendre (l : nat) (y : R) : R := fst (legendre2 l y).

(** The angular integral the coefficients stand for (Fortuna et al. 2021, C8), for
    slopes b = 2 p - 2: over the sphere, of sin^b times cos(2 phi) times the Legendre
    polynomial of the angle between the direction and k. *)
Definition angular_integral (theta : R) (l p : nat) : R :=
  RInt (fun x => (1 - x ^ 2) ^ p / (1 - x ^ 2) *
    RInt (fun phi => legendre l (sin theta * sqrt (1 - x ^ 2) * cos phi + cos theta * x) * cos (2 * phi))
      0 (2 * PI)) (-1) 1.
