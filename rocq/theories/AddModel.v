(** src/onepower/add.py: UpsampledSpectra.  Model definitions only.

    The halo model objects (class Spectra) are abstract here: [api] collects what
    add.py uses of them.  Objects handed in by the caller live in a heap and are
    shared by reference, as in Python; objects created by add.py itself are values.
    functools.cached_property is a cell filled at the first successful read and
    never emptied.  hmf's Framework.update assigns the given parameters. *)
From Verif Require Import Base Interp HodModel PkModel.
Open Scope R_scope.

(** What add.py uses of class Spectra: construction from keyword arguments (174-180),
    clone().update with the second parameters (193-200; clone is a deep copy), z_vec, k_vec and the
    spectra by name (225-241). *)
Record api := {
  obj : Type; prm : Type;
  construct : prm -> res obj;
  update_obj : obj -> prm -> res obj;
  o_nz : obj -> nat; o_z : obj -> A1; o_nk : obj -> nat; o_k : obj -> A1;
  o_spec : obj -> string -> res psr }.

(** Arrays indexed (bin, redshift, wavenumber) with their redshift length. *)
Record arr3 := { r_rows : nat; r_val : A3 }.

(** pk.py:60-69  PowerSpectrumResult with its default None fields, as stored by results(). *)
Record stored := { st_1h : option arr3; st_2h : option arr3; st_tot : option arr3 }.
Definition nothing : stored := {| st_1h := None; st_2h := None; st_tot := None |}.

Section Ups.
  Context {A : api}.

  (** add.py:36-55  constructor arguments; a caller's model is a reference into the heap;
      1-d arrays come with their length. *)
  Record uparams := {
    u_nz : nat; u_z : A1; u_nk : nat; u_k : A1;
    u_fz : option (nat * A1); u_f : option (nat * A1);
    u_model : option nat; u_m1 : prm A; u_m2 : option (prm A); u_fill : fill }.

  (** Value of power_1: the caller's object or an object of its own. *)
  Inductive source := Shared (ref : nat) | Own (o : obj A).

  Record ups := {
    us_par : uparams; us_heap : nat -> obj A;
    us_frac1 : option (nat * A1);       (* cached_property frac_1 *)
    us_power1 : option source;          (* cached_property power_1 *)
    us_power2 : option (option (obj A)); (* cached_property power_2 *)
    us_out : string -> option stored }. (* attributes power_spectrum_<mode> *)

  Definition deref (heap : nat -> obj A) (s : source) : obj A :=
    match s with Shared r => heap r | Own o => o end.

  (** add.py:129-152  the value computed by frac_1. *)
  Definition frac_1_value (p : uparams) : res (nat * A1) :=
    match u_f p with
    | None => Ok (u_nz p, fun _ => 1)
    | Some (n, f) =>
        match u_fz p with
        | None => Err "ValueError"
        | Some (n', x) =>
            if Nat.eqb n n' then Ok (u_nz p, fun i => interp1d Extrapolate n x f (u_z p i))
            else Err "ValueError"
        end
    end.

  (** add.py:154-166  frac_2. *)
  Definition frac_2_value (p : uparams) (f1 : nat * A1) : nat * A1 :=
    match u_f p with
    | None => (u_nz p, fun _ => 0)
    | Some _ => (fst f1, fun i => 1 - snd f1 i)
    end.

  (** add.py:168-180  power_1. *)
  Definition power_1_value (p : uparams) : res source :=
    match u_model p with
    | None => bind (construct A (u_m1 p)) (fun o => Ok (Own o))
    | Some r => Ok (Shared r)
    end.

  (** add.py:182-200  power_2, from the object power_1 denotes. *)
  Definition power_2_value (p : uparams) (o1 : obj A) : res (option (obj A)) :=
    match u_m2 p with
    | None => Ok None
    | Some q => bind (update_obj A o1 q) (fun o => Ok (Some o))
    end.

  (** add.py:250-293  extrapolate_spectra to the output grid of [p]. *)
  Definition extrapolate (p : uparams) (o : obj A) (power : A3) : A3 := fun b i j =>
    interp1d Extrapolate (o_nk A o) (fun k => log10 (o_k A o k))
      (fun k => interp1d (u_fill p) (o_nz A o) (o_z A o) (fun z => power b z k) (u_z p i))
      (log10 (u_k p j)).

  (** numpy broadcasting of frac_1[:, np.newaxis] (shape (n, 1)) against (bins, nz, nk). *)
  Definition bcast (n nz : nat) : res nat :=
    if Nat.eqb n nz then Ok nz else if Nat.eqb n 1 then Ok nz else if Nat.eqb nz 1 then Ok n else Err "ValueError".
  Definition bidx (n i : nat) : nat := if Nat.eqb n 1 then 0%nat else i.

  (** add.py:295-328  add_spectra; [f1] is the (cached) fraction. *)
  Definition mix (mode : string) (f p1 p2 : R) : R :=
    if (String.eqb mode "gm" || String.eqb mode "mi")%bool then f * p1 + (1 - f) * p2
    else f ^ 2 * p1 + (1 - f) ^ 2 * p2.
  Definition add_spectra (f1 : nat * A1) (nz : nat) (p1 p2 : A3) (mode : string) : res arr3 :=
    bind (bcast (fst f1) nz) (fun rows =>
    Ok {| r_rows := rows;
          r_val := fun b i j =>
            mix mode (snd f1 (bidx (fst f1) i)) (p1 b (bidx nz i) j) (p2 b (bidx nz i) j) |}).

  (** getattr(p, f'pk_{component}') for the numeric components. *)
  Definition component (c : string) (r : psr) : res A3 :=
    if String.eqb c "1h" then Ok (pk_1h r)
    else if String.eqb c "2h" then Ok (pk_2h r)
    else if String.eqb c "tot" then Ok (pk_tot r)
    else Err "AttributeError".

  Definition set_component (c : string) (v : arr3) (s : stored) : stored :=
    if String.eqb c "1h" then {| st_1h := Some v; st_2h := st_2h s; st_tot := st_tot s |}
    else if String.eqb c "2h" then {| st_1h := st_1h s; st_2h := Some v; st_tot := st_tot s |}
    else {| st_1h := st_1h s; st_2h := st_2h s; st_tot := Some v |}.

  (** The memo cells of one object. *)
  Record cells := { c_frac1 : option (nat * A1); c_power1 : option source; c_power2 : option (option (obj A)) }.
  Definition read_power1 (p : uparams) (c : cells) : cells * res source :=
    match c_power1 c with
    | Some s => (c, Ok s)
    | None => match power_1_value p with
              | Ok s => ({| c_frac1 := c_frac1 c; c_power1 := Some s; c_power2 := c_power2 c |}, Ok s)
              | Err e => (c, Err e)
              end
    end.
  Definition read_power2 (p : uparams) (heap : nat -> obj A) (c : cells) : cells * res (option (obj A)) :=
    match c_power2 c with
    | Some o => (c, Ok o)
    | None =>
        match u_m2 p with
        | None => ({| c_frac1 := c_frac1 c; c_power1 := c_power1 c; c_power2 := Some None |}, Ok None)
        | Some _ =>
            let '(c1, s) := read_power1 p c in
            match s with
            | Err e => (c1, Err e)
            | Ok s => match power_2_value p (deref heap s) with
                      | Ok o => ({| c_frac1 := c_frac1 c1; c_power1 := c_power1 c1; c_power2 := Some o |}, Ok o)
                      | Err e => (c1, Err e)
                      end
            end
        end
    end.
  Definition read_frac1 (p : uparams) (c : cells) : cells * res (nat * A1) :=
    match c_frac1 c with
    | Some f => (c, Ok f)
    | None => match frac_1_value p with
              | Ok f => ({| c_frac1 := Some f; c_power1 := c_power1 c; c_power2 := c_power2 c |}, Ok f)
              | Err e => (c, Err e)
              end
    end.

  (** add.py:221-245  one component of one mode. *)
  Definition one_component (p : uparams) (heap : nat -> obj A) (mode comp : string) (c : cells) : cells * res arr3 :=
    let '(c1, s1) := read_power1 p c in
    match s1 with
    | Err e => (c1, Err e)
    | Ok s1 =>
      let o1 := deref heap s1 in
      match bind (o_spec A o1 mode) (component comp) with
      | Err e => (c1, Err e)
      | Ok q1 =>
        let e1 := extrapolate p o1 q1 in
        let '(c2, s2) := read_power2 p heap c1 in
        match bind s2 (fun o2 => match o2 with
                | None => Ok (fun _ _ _ => 0)
                | Some o2 => bind (bind (o_spec A o2 mode) (component comp)) (fun q2 => Ok (extrapolate p o2 q2))
                end) with
        | Err e => (c2, Err e)
        | Ok e2 =>
          if String.eqb mode "mm" then (c2, Ok {| r_rows := u_nz p; r_val := e1 |})
          else let '(c3, f) := read_frac1 p c2 in
               (c3, bind f (fun f => add_spectra f (u_nz p) e1 e2 mode))
        end
      end
    end.

  (** add.py:222-245  the loop over components. *)
  Fixpoint components (p : uparams) (heap : nat -> obj A) (mode : string) (comps : list string) (c : cells)
      (acc : stored) : cells * res stored :=
    match comps with
    | [] => (c, Ok acc)
    | comp :: rest =>
        let '(c1, v) := one_component p heap mode comp c in
        match v with
        | Err e => (c1, Err e)
        | Ok v => components p heap mode rest c1 (set_component comp v acc)
        end
    end.

  (** add.py:202-248  results(requested_spectra, requested_components). *)
  Fixpoint results_loop (p : uparams) (heap : nat -> obj A) (modes comps : list string) (c : cells)
      (out : string -> option stored) : cells * (string -> option stored) * res unit :=
    match modes with
    | [] => (c, out, Ok tt)
    | m :: rest =>
        let '(c1, r) := components p heap m comps c nothing in
        match r with
        | Err e => (c1, out, Err e)
        | Ok r => results_loop p heap rest comps c1 (fun x => if String.eqb x m then Some r else out x)
        end
    end.

  Definition cells_of (s : ups) : cells :=
    {| c_frac1 := us_frac1 s; c_power1 := us_power1 s; c_power2 := us_power2 s |}.

  Definition results (s : ups) (modes comps : list string) : ups * res unit :=
    let '(c, out, r) := results_loop (us_par s) (us_heap s) modes comps (cells_of s) (us_out s) in
    ({| us_par := us_par s; us_heap := us_heap s; us_frac1 := c_frac1 c; us_power1 := c_power1 c;
        us_power2 := c_power2 c; us_out := out |}, r).

  (** add.py:36-55  a new object. *)
  Definition new_ups (p : uparams) (heap : nat -> obj A) : ups :=
    {| us_par := p; us_heap := heap; us_frac1 := None; us_power1 := None; us_power2 := None;
       us_out := fun _ => None |}.

  (** What can happen to an object: update(...) (any new parameter values), results(), and the
      caller changing one of its own Spectra objects. *)
  Inductive event :=
  | EUpdate (p : uparams)
  | EResults (modes comps : list string)
  | ECaller (ref : nat) (o : obj A).

  Definition step (s : ups) (e : event) : ups :=
    match e with
    | EUpdate p => {| us_par := p; us_heap := us_heap s; us_frac1 := us_frac1 s; us_power1 := us_power1 s;
                      us_power2 := us_power2 s; us_out := us_out s |}
    | EResults modes comps => fst (results s modes comps)
    | ECaller r o => {| us_par := us_par s; us_heap := fun x => if Nat.eqb x r then o else us_heap s x;
                        us_frac1 := us_frac1 s; us_power1 := us_power1 s; us_power2 := us_power2 s;
                        us_out := us_out s |}
    end.
  Definition run (s : ups) (h : list event) : ups := fold_left step h s.
End Ups.
Arguments uparams A : clear implicits.
Arguments ups A : clear implicits.
Arguments event A : clear implicits.
Arguments source A : clear implicits.
Arguments cells A : clear implicits.
