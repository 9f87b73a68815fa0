(** Option handling: validation in pk.py, hmi.py and ia.py, and the align_params
    dictionary of pk.py:2075-2095.  Model definitions only. *)
From Verif Require Import Base PkModel.
Open Scope string_scope.

(** A Python value given for an option: None, a string or anything else. *)
Inductive pyval := PNone | PStr (s : string) | POther (n : nat).
Definition pyval_eqb (a b : pyval) : bool :=
  match a, b with
  | PNone, PNone => true
  | PStr s, PStr t => String.eqb s t
  | POther n, POther m => Nat.eqb n m
  | _, _ => false
  end.
Definition py_in (v : pyval) (l : list pyval) : bool := existsb (pyval_eqb v) l.

(** pk.py:57 and hmi.py:37. *)
Definition NONLINEAR_MODES : list pyval := [PStr "bnl"; PStr "hmcode"; PStr "fortuna"; PNone].
Definition VALID_HMCODE_INGREDIENTS : list pyval :=
  [PStr "mead2020_feedback"; PStr "mead2020"; PStr "fit"; PNone].

(** pk.py:217-230, hmi.py:626-637. *)
Definition check (valid : list pyval) (v : pyval) : res pyval :=
  if py_in v valid then Ok v else Err "ValueError".

Record conf := { cf_mode : pyval; cf_ingr : pyval }.

(** pk.py:207-215  validate. *)
Definition falsy (v : pyval) : bool :=
  match v with PNone => true | PStr s => String.eqb s "" | POther _ => false end.
Definition validate (c : conf) : res unit :=
  if pyval_eqb (cf_mode c) (PStr "hmcode") && falsy (cf_ingr c) then Err "ValueError"
  else if pyval_eqb (cf_mode c) (PStr "hmcode") && pyval_eqb (cf_ingr c) (PStr "fit")
  then Err "ValueError"
  else Ok tt.

(** pk.py:146-176  construction: the base class sets hmcode_ingredients first, then the
    mode is set; hmf's metaclass validates the finished object. *)
Definition new_conf (mode ingr : pyval) : res conf :=
  bind (check VALID_HMCODE_INGREDIENTS ingr) (fun i =>
  bind (check NONLINEAR_MODES mode) (fun m =>
  let c := {| cf_mode := m; cf_ingr := i |} in
  bind (validate c) (fun _ => Ok c))).

(** hmf Framework.update: sets the given options one by one, then validates.  The state
    after the call is kept also when it raises. *)
Inductive assignment := SetMode (v : pyval) | SetIngr (v : pyval).
Definition assign (c : conf) (a : assignment) : res conf :=
  match a with
  | SetMode v => bind (check NONLINEAR_MODES v) (fun v => Ok {| cf_mode := v; cf_ingr := cf_ingr c |})
  | SetIngr v => bind (check VALID_HMCODE_INGREDIENTS v) (fun v => Ok {| cf_mode := cf_mode c; cf_ingr := v |})
  end.
Fixpoint assign_all (c : conf) (l : list assignment) : conf * res unit :=
  match l with
  | [] => (c, validate c)
  | a :: l => match assign c a with Ok c' => assign_all c' l | Err e => (c, Err e) end
  end.
Definition update_conf (c : conf) (l : list assignment) : conf * res unit := assign_all c l.

(** The branches the spectra take for an option value (comparisons with literals,
    pk.py:435, 463, 484, 511, 555, 1556-1564, 1566, 1597-1598, ...). *)
Definition mode_of (v : pyval) : nl_mode :=
  if pyval_eqb v (PStr "bnl") then Bnl
  else if pyval_eqb v (PStr "hmcode") then Hmcode
  else if pyval_eqb v (PStr "fortuna") then Fortuna else NoNl.
Definition ingr_of (v : pyval) : hm_ingr :=
  if pyval_eqb v (PStr "mead2020_feedback") then Mead2020Fb
  else if pyval_eqb v (PStr "mead2020") then Mead2020
  else if pyval_eqb v (PStr "fit") then Fit else NoIngr.

(** ia.py:103-133, 600-612. *)
Definition ia_depends_on (v : pyval) : res pyval :=
  check [PStr "constant"; PStr "luminosity"; PStr "halo_mass"] v.
Definition ia_method (v : pyval) : res pyval := check [PStr "hankel"; PStr "fftlog"] v.

(** * The align_params dictionary *)

(** A dictionary: key/value pairs; assignment overwrites or appends. *)
Definition dict (V : Type) : Type := list (string * V).
Fixpoint dget {V} (d : dict V) (k : string) : option V :=
  match d with
  | [] => None
  | (x, v) :: d => if String.eqb x k then Some v else dget d k
  end.
Fixpoint dset {V} (d : dict V) (k : string) (v : V) : dict V :=
  match d with
  | [] => [(k, v)]
  | (x, w) :: d => if String.eqb x k then (x, v) :: d else (x, w) :: dset d k v
  end.
(** dict.update. *)
Definition dupdate {V} (d e : dict V) : dict V := fold_left (fun d x => dset d (fst x) (snd x)) e d.

Section Align.
  Context {V : Type}.

  (** The entries Spectra adds, pk.py:2085-2094; [fftlog] is the string 'fftlog'. *)
  Record own := { o_z : V; o_mass : V; o_c : V; o_rs : V; o_rvir : V }.
  Variable fftlog : V.
  Definition entries (o : own) : dict V :=
    [("z_vec", o_z o); ("mass_in", o_mass o); ("c_in", o_c o); ("r_s_in", o_rs o);
     ("rvir_in", o_rvir o); ("method", fftlog)].

  (** Dictionaries live in a heap, as callers and objects share them. *)
  Definition heap := nat -> dict V.
  Definition hput (h : heap) (r : nat) (d : dict V) : heap :=
    fun x => if Nat.eqb x r then d else h x.

  (** pk.py:205  self.align_params = align_params or {}: an empty dictionary is replaced
      by a new one, at the unused address [new]. *)
  Definition attach (h : heap) (new : nat) (given : option nat) : heap * nat :=
    match given with
    | Some r => match h r with [] => (hput h new [], new) | _ => (h, r) end
    | None => (hput h new [], new)
    end.

  (** pk.py:2085-2095  computing alignment_class of an object whose align_params is at
      [r]: the new heap and the keyword arguments given to SatelliteAlignment. *)
  Definition align (h : heap) (r : nat) (o : own) : heap * dict V :=
    let d := dupdate (h r) (entries o) in (hput h r d, d).

  (** A sequence of such computations, by any objects. *)
  Fixpoint aligns (h : heap) (l : list (nat * own)) : heap * list (dict V) :=
    match l with
    | [] => (h, [])
    | (r, o) :: l =>
        let (h1, d) := align h r o in
        let (h2, ds) := aligns h1 l in (h2, d :: ds)
    end.
End Align.
