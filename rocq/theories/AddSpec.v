(** Vocabulary for the statements about UpsampledSpectra (AddProps). *)
From Verif Require Import Base Spec Interp HodModel PkModel AddModel.
Open Scope R_scope.

Section AddSpec.
  Context {A : api}.

  (** The component of a stored result, by name. *)
  Definition stored_component (comp : string) (s : stored) : option arr3 :=
    if String.eqb comp "1h" then st_1h s
    else if String.eqb comp "2h" then st_2h s
    else if String.eqb comp "tot" then st_tot s else None.

  (** What object [s] answers for one component of one mode. *)
  Definition asked (s : ups A) (mode comp : string) : res arr3 :=
    let '(s', r) := results s [mode] [comp] in
    bind r (fun _ => match us_out s' mode with
                     | Some st => match stored_component comp st with Some v => Ok v | None => Err "none" end
                     | None => Err "none"
                     end).

  (** What a newly built object answers. *)
  Definition answer (p : uparams A) (heap : nat -> obj A) : string -> string -> res arr3 := asked (new_ups p heap).

  (** The same request for a single population, the caller's object [r]. *)
  Definition single (r : nat) (p : uparams A) : uparams A :=
    {| u_nz := u_nz p; u_z := u_z p; u_nk := u_nk p; u_k := u_k p; u_fz := None; u_f := None;
       u_model := Some r; u_m1 := u_m1 p; u_m2 := None; u_fill := u_fill p |}.
  Definition with_fraction (fz f : option (nat * A1)) (p : uparams A) : uparams A :=
    {| u_nz := u_nz p; u_z := u_z p; u_nk := u_nk p; u_k := u_k p; u_fz := fz; u_f := f;
       u_model := u_model p; u_m1 := u_m1 p; u_m2 := u_m2 p; u_fill := u_fill p |}.

  (** The two populations of a request: [r1] holds the first, [r2] the second. *)
  Definition first_is (p : uparams A) (heap : nat -> obj A) (r1 : nat) : Prop :=
    match u_model p with None => construct A (u_m1 p) = Ok (heap r1) | Some r => heap r = heap r1 end.
  Definition second_is (p : uparams A) (heap : nat -> obj A) (r1 r2 : nat) : Prop :=
    exists q, u_m2 p = Some q /\ update_obj A (heap r1) q = Ok (heap r2).

  (** [f] is the fraction of the first population at output redshift [i]. *)
  Definition fraction_is (p : uparams A) (i : nat) (f : R) : Prop :=
    match u_f p with
    | None => f = 1
    | Some (n, y) => exists x, u_fz p = Some (n, x) /\ interp1d Extrapolate n x y (u_z p i) = f
    end.

  (** Parameters that the memo cells depend on; the rest is k and extrapolate_option. *)
  Definition same_sources (p p' : uparams A) : Prop :=
    u_nz p' = u_nz p /\ (forall i, u_z p' i = u_z p i) /\ u_fz p' = u_fz p /\ u_f p' = u_f p /\
    u_model p' = u_model p /\ u_m1 p' = u_m1 p /\ u_m2 p' = u_m2 p.
  Definition same_target (p p' : uparams A) : Prop :=
    u_nz p' = u_nz p /\ u_z p' = u_z p /\ u_nk p' = u_nk p /\ u_k p' = u_k p /\ u_fill p' = u_fill p.

  (** Histories that leave fraction, redshifts and populations of [p] as they are. *)
  Definition quiet (p : uparams A) (e : event A) : Prop :=
    match e with
    | EUpdate p' => same_sources p p'
    | EResults _ _ => True
    | ECaller r _ => u_model p <> Some r \/ u_m2 p = None
    end.
  Definition no_update (e : event A) : Prop := match e with EUpdate _ => False | _ => True end.

  (** The components asked for by the last results() call that named [mode]. *)
  Definition last_request (mode : string) (h : list (event A)) : option (list string) :=
    fold_left (fun acc e => match e with
                            | EResults modes comps => if in_dec string_dec mode modes then Some comps else acc
                            | _ => acc
                            end) h None.
  (** No results() call of the history raises. *)
  Fixpoint no_errors (s : ups A) (h : list (event A)) : Prop :=
    match h with
    | [] => True
    | e :: rest => match e with EResults modes comps => snd (results s modes comps) = Ok tt | _ => True end
                   /\ no_errors (step s e) rest
    end.

  (** The components of a result add up on a grid. *)
  Definition sums_up (nz nk : nat) (x y t : A3) : Prop :=
    forall b z k, (z < nz)%nat -> (k < nk)%nat -> t b z k = x b z k + y b z k.
  (** A model's grid is usable: at least two increasing redshifts and positive wavenumbers. *)
  Definition good_grid (o : obj A) : Prop :=
    (2 <= o_nz A o)%nat /\ increasing (o_nz A o) (o_z A o) /\
    (2 <= o_nk A o)%nat /\ increasing (o_nk A o) (o_k A o) /\ 0 < o_k A o 0%nat.
End AddSpec.
