(** Shared vocabulary of the model: results of Python calls, numpy scalars and
    small array helpers.  Everything here models numpy/Python primitives, not
    onepower code; the onepower models cite [/repo] files and lines. *)
From Coq Require Export Reals Lra List Arith Lia String Bool.
Export ListNotations.
Open Scope R_scope.

(** Outcome of a Python call: a value or an exception (its class name). *)
Inductive res (A : Type) : Type :=
| Ok (a : A)
| Err (e : string).
Arguments Ok {A} a.
Arguments Err {A} e.

Definition is_ok {A} (r : res A) : bool := match r with Ok _ => true | Err _ => false end.

Definition bind {A B} (r : res A) (f : A -> res B) : res B :=
  match r with Ok a => f a | Err e => Err e end.

(** Array element types: index functions with the sizes kept beside them. *)
Notation A1 := (nat -> R) (only parsing).
Notation A2 := (nat -> nat -> R) (only parsing).
Notation A3 := (nat -> nat -> nat -> R) (only parsing).
Notation A4 := (nat -> nat -> nat -> nat -> R) (only parsing).

(** np.sum over an axis of length [n]. *)
Fixpoint sumR (n : nat) (f : nat -> R) : R :=
  match n with
  | O => 0
  | S k => sumR k f + f k
  end.

(** np.heaviside(x, h0). *)
Definition heaviside (x h0 : R) : R :=
  if Rlt_dec x 0 then 0 else if Req_EM_T x 0 then h0 else 1.

(** np.fmin / np.fmax on ordinary numbers. *)
Definition fmin (a b : R) : R := if Rle_dec a b then a else b.
Definition fmax (a b : R) : R := if Rle_dec a b then b else a.

(** Python / numpy [x ** a] for real [x >= 0]: a zero base gives 1 for a zero
    exponent and 0 for a positive one (the infinity of a negative exponent is
    not a real number, theorems exclude it by hypothesis). *)
Definition fpow (x a : R) : R :=
  if Rle_dec x 0 then (if Req_EM_T a 0 then 1 else 0) else Rpower x a.

Definition ten : R := 10.
(** [10.0 ** x] and [np.log10 x]. *)
Definition pow10 (x : R) : R := Rpower ten x.
Definition log10 (x : R) : R := ln x / ln ten.

(** np.linspace(a, b, n)[i]  (endpoint included): a + i*step, last point set to b. *)
Definition linspace (a b : R) (n : nat) (i : nat) : R :=
  if Nat.eqb n 1 then a
  else if Nat.eqb (S i) n then b
  else a + INR i * ((b - a) / INR (n - 1)).

(** np.logspace(a, b, n)[i] = 10 ** linspace. *)
Definition logspace (a b : R) (n : nat) (i : nat) : R := pow10 (linspace a b n i).
