(** scipy.interpolate.interp1d(kind='linear').  Model definitions only.
    External code (scipy), transcribed from interp1d._call_linear/_evaluate;
    used in src/onepower/hod.py:129-159,341-347, src/onepower/add.py:129-293 and
    cosmosis_modules/onepower_interface.py:62-79. *)
From Verif Require Import Base.
Open Scope R_scope.

(** np.searchsorted(x, q) (side='left') on a sorted array: the number of nodes
    strictly below [q]. *)
Fixpoint searchsorted (n : nat) (x : nat -> R) (q : R) : nat :=
  match n with
  | O => 0%nat
  | S k => (searchsorted k x q + (if Rlt_dec (x k) q then 1 else 0))%nat
  end.

(** x_new_indices.clip(1, len(self.x) - 1). *)
Definition clip_idx (n i : nat) : nat := Nat.min (Nat.max 1 i) (n - 1).

(** interp1d._call_linear: slope of the bracketing interval. *)
Definition interp_lin (n : nat) (x y : nat -> R) (q : R) : R :=
  let hi := clip_idx n (searchsorted n x q) in
  let lo := (hi - 1)%nat in
  (y hi - y lo) / (x hi - x lo) * (q - x lo) + y lo.

(** Behaviour outside the tabulated range. *)
Inductive fill : Type :=
| Extrapolate                    (* fill_value='extrapolate' *)
| FillValue (v : R)              (* bounds_error=False, fill_value=v *)
| FillPair (lo hi : R).          (* bounds_error=False, fill_value=(lo, hi) *)

(** interp1d(x, y, fill_value=f, bounds_error=False)(q). *)
Definition interp1d (f : fill) (n : nat) (x y : nat -> R) (q : R) : R :=
  match f with
  | Extrapolate => interp_lin n x y q
  | FillValue v =>
      if Rlt_dec q (x 0%nat) then v
      else if Rlt_dec (x (n-1)%nat) q then v else interp_lin n x y q
  | FillPair a b =>
      if Rlt_dec q (x 0%nat) then a
      else if Rlt_dec (x (n-1)%nat) q then b else interp_lin n x y q
  end.

(** interp1d(x, y)(q) with the default bounds_error=True. *)
Definition interp1d_strict (n : nat) (x y : nat -> R) (q : R) : res R :=
  if Rlt_dec q (x 0%nat) then Err "ValueError"
  else if Rlt_dec (x (n-1)%nat) q then Err "ValueError"
  else Ok (interp_lin n x y q).
