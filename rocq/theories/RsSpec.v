(** Vocabulary for the real-space modules. *)
From Verif Require Import Base RsModel.
Open Scope R_scope.

(** Centre and step of the logarithmic grid of n wavenumbers from k_min to k_max. *)
Definition mid (k_min k_max : R) : R := exp (/ 2 * (ln k_min + ln k_max)).
Definition step (n : nat) (k_min k_max : R) : R := (ln k_max - ln k_min) / INR (n - 1).
(** The section of the power spectrum of a bin, the number of bins, the unit of the output. *)
Definition section_name (J : job) (i : nat) : option string :=
  match j_suffixes J with Some l => option_map (fun s => (j_input J ++ "_" ++ s)%string) (nth_error l i) | None => Some (j_input J) end.
Definition bin_count (J : job) : option nat := match j_suffixes J with Some l => Some (List.length l) | None => j_nbin J end.
Definition scale_of (ty : string) (rho : nat * A1) : R := if String.eqb ty "ds" then snd rho 0%nat / 10 ^ 12 else 1.
Definition prod (l : list R) : R := fold_right Rmult 1 l.
(** A cosmology with no vanishing distance at the redshifts used. *)
Definition regular (c : cosmo) (z : R) : Prop :=
  c_h c <> 0 /\ c_dist c z <> 0 /\ c_e c z <> 0 /\ c_da c z <> 0 /\ c_da c (6 / 10) <> 0 /\ c_da12 c z (6 / 10) <> 0.
(** The expansion rate in units of 100 km/s/Mpc, the critical surface density of a lens for a
    source at 0.6 up to a constant, and a comoving distance in Mpc/h. *)
Definition hubble (c : cosmo) (z : R) : R := c_h c * c_e c z.
Definition sigma_crit (c : cosmo) (z : R) : R := c_da c (6 / 10) / (c_da c z * c_da12 c z (6 / 10)).
Definition dist_h (c : cosmo) (z : R) : R := c_dist c z * c_h c.
(** The name under which a unit is looked up. *)
Definition canon (u : string) : string := if orb (String.eqb u "radian") (String.eqb u "radians") then "rad"%string else u.
Definition supported (u : string) : Prop := In u ["rad"; "deg"; "arcmin"; "arcsec"]%string.
