(** Vocabulary for the statements about the legacy beta_nl modules. *)
From Coq Require Import ZArith.
From Verif Require Import Base FftModel ChainModel LbModel.
Open Scope R_scope.

(** Two computations that succeed together, with related results, or fail alike. *)
Definition agree {A B} (rel : A -> B -> Prop) (x : res A) (y : res B) : Prop :=
  match x, y with Ok a, Ok b => rel a b | Err e, Err e' => e = e' | _, _ => False end.

(** A least-squares fit of a constant to one point at least. *)
Definition square_error (ys : list R) (a : R) : R := fold_right Rplus 0 (map (fun y => (y - a) * (y - a)) ys).
Definition least_squares (fit : list R -> list R -> res R) : Prop :=
  forall xs ys, List.length xs = List.length ys -> ys <> [] ->
    exists a, fit xs ys = Ok a /\ forall a', square_error ys a <= square_error ys a'.

(** The same table with the wavenumber first and with the wavenumber last. *)
Definition transposed (x y : nd_array) : Prop :=
  exists n p f g, x = NdFour 1 n n p f /\ y = NdFour 1 p n n g /\
    forall i j k, (i < n)%nat -> (j < n)%nat -> (k < p)%nat -> f 0%nat i j k = g 0%nat k i j.

(** A call that can be served from its own block alone. *)
Definition computes (fresh : list R -> dblock -> res nd_array) (nk : Z) (b : dblock) (t : nd_array) : Prop :=
  exists kv, lb_wave nk b = Ok kv /\ fresh kv b = Ok t.

(** The blocks of the calls that were counted. *)
Fixpoint served (fresh : list R -> dblock -> res nd_array) (c : bconfig) (s : bstate) (l : list (dblock * option nd_array)) : list dblock :=
  match l with
  | [] => []
  | (b, e) :: l => let s' := fst (lb_call fresh c s b e) in
      if Z.eqb (bs_calls s') (bs_calls s) then served fresh c s' l else b :: served fresh c s' l
  end.
