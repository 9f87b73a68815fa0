(** Mathematical vocabulary shared by the property statements.  Nothing here
    refers to model code. *)
From Verif Require Import Base.
Open Scope R_scope.

(** A strictly increasing array of length n. *)
Definition increasing (n : nat) (x : nat -> R) : Prop :=
  forall i, (S i < n)%nat -> x i < x (S i).

(** A log-uniform grid: positive, constant ratio r. *)
Definition log_uniform (n : nat) (r : R) (x : nat -> R) : Prop :=
  0 < x 0%nat /\ forall i, (S i < n)%nat -> x (S i) = r * x i.

(** A real function that is a polynomial of degree at most two / one. *)
Definition is_parabola (f : R -> R) : Prop :=
  exists a b c, forall t, f t = a + b * t + c * t ^ 2.
Definition is_affine (f : R -> R) : Prop :=
  exists a b, forall t, f t = a + b * t.

(** The classical composite trapezoid rule over the first k intervals. *)
Fixpoint trapezoid (k : nat) (y x : nat -> R) : R :=
  match k with
  | O => 0
  | S j => trapezoid j y x + (x (S j) - x j) * (y j + y (S j)) / 2
  end.

(** y lies between a and b, in either order. *)
Definition between (a b y : R) : Prop := Rmin a b <= y <= Rmax a b.
