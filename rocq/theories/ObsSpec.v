(** Vocabulary of the observable-function properties. *)
From Verif Require Import Base Spec Quad Erf HodModel HodSpec.
Open Scope R_scope.

(** Number density of centrals whose log10 observable is below x, in a population of haloes
    with mass function n = dn/dlnM on the grid mass: every halo has one central, whose log10
    observable is normal around the double power law with scatter ca_sigma. *)
Definition centrals_below (nm : nat) (mass n : nat -> R) (p : cacciato_par) (x : R) : R :=
  simpson nm (fun m => 1 / 2 * (1 + erf ((x - log10 (ca_mean p (mass m))) / (sqrt 2 * ca_sigma p)))
                       * n m / mass m) mass.
