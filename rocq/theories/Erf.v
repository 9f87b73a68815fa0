(** The error function (scipy.special.erf, used in src/onepower/hod.py:1416,1578),
    defined by its integral, not assumed. *)
From Coq Require Import Reals.
From Coquelicot Require Import Coquelicot.
Open Scope R_scope.

Definition gauss (t : R) : R := exp (- (t * t)).
Definition erf (x : R) : R := 2 / sqrt PI * RInt gauss 0 x.
