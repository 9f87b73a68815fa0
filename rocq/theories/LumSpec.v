(** Vocabulary for the statements about luminosity averages. *)
From Verif Require Import Base Quad Interp IaModel.
Open Scope R_scope.

(** What Simpson's rule (with the correction for the last interval of an even number of points)
    gives sample [i] of [n] equally spaced ones, in units of the spacing. *)
Definition simpson_weight (n i : nat) : R :=
  if Nat.eqb i 0 then 1 / 3
  else if Nat.even n then
    if Nat.eqb i (n - 1) then 5 / 12 else if Nat.eqb i (n - 2) then 1 else if Nat.eqb i (n - 3) then 5 / 4
    else if Nat.even i then 2 / 3 else 4 / 3
  else if Nat.eqb i (n - 1) then 1 / 3 else if Nat.even i then 2 / 3 else 4 / 3.
(** The average of a function over a sample. *)
Definition average (f : R -> R) (l : list R) : R := fold_right (fun t s => f t + s) 0 l / INR (List.length l).
(** The range of a histogram of [l]: the sample's, or one unit around its only value. *)
Definition spans (lo hi : R) (l : list R) : Prop :=
  (In lo l /\ In hi l /\ lo < hi /\ forall t, In t l -> lo <= t <= hi) \/
  (exists x, (forall t, In t l -> t = x) /\ lo = x - 1 / 2 /\ hi = x + 1 / 2).
(** [bin] says in which of [n] equal intervals each value lies. *)
Definition binned (n : nat) (lo hi : R) (l : list R) (bin : R -> nat) : Prop :=
  forall t, In t l -> (bin t < n)%nat /\ lo + INR (bin t) * ((hi - lo) / INR n) <= t /\
    (t < lo + (INR (bin t) + 1) * ((hi - lo) / INR n) \/ ((bin t + 1)%nat = n /\ t = hi)).
(** The middle of interval [j]. *)
Definition middle (n : nat) (lo hi : R) (j : nat) : R := lo + (INR j + 1 / 2) * ((hi - lo) / INR n).
(** Galaxy [g] belongs to redshift [i] of [nz]: from half the first spacing below it to half the
    first spacing below the next, or above the last. *)
Definition belongs (nz : nat) (z : nat -> R) (i : nat) (g : R * R) : Prop :=
  let h := (z 1%nat - z 0%nat) / 2 in
  z i - h <= fst g /\ ((S i < nz)%nat -> fst g < z (S i) - h) /\ ((nz <= S i)%nat -> fst g < z (nz - 1)%nat + h).
(** [l] are the luminosities of the galaxies of redshift [i]. *)
Inductive luminosities (nz : nat) (z : nat -> R) (i : nat) : list (R * R) -> list R -> Prop :=
| lum_none : luminosities nz z i [] []
| lum_in g gal l : belongs nz z i g -> luminosities nz z i gal l -> luminosities nz z i (g :: gal) (pow10 (snd g) :: l)
| lum_out g gal l : ~ belongs nz z i g -> luminosities nz z i gal l -> luminosities nz z i (g :: gal) l.
(** The luminosity dependence of a sample: one power, or another one up to the pivot. *)
Definition dependence (l0 beta : R) (below : option R) (l : R) : R :=
  match below with
  | Some b2 => if Rlt_dec l0 l then fpow (l / l0) beta else fpow (l / l0) b2
  | None => fpow (l / l0) beta
  end.
