(** The caching discipline of hmf's Framework (parameter, cached_quantity) and of
    functools.cached_property, on which class Spectra is built (pk.py, hmi.py).
    Model definitions only.

    hmf is a dependency, not part of the repository: the machine below is the trusted
    reading of hmf/_internals/_cache.py.  A cached quantity records, while it is computed
    for the first time, every parameter read on the way (its index).  Setting a parameter
    to a different value marks every quantity whose index contains it for recalculation;
    a recalculation does not record a new index.  A parameter declared 'switch' or 'model'
    also makes these quantities forget their index.  A cached_property is computed once
    and kept; reading it again records nothing.  Exceptions are not modelled: nothing is
    said about an object after a read or an update has raised. *)
From Coq Require Import String List Bool.
Import ListNotations.
Open Scope string_scope.
Open Scope list_scope.

Definition mem (x : string) (l : list string) : bool := existsb (String.eqb x) l.

Section Cache.
  Variable V : Type.

  (** The body of a quantity: a computation that reads parameters and quantities. *)
  Inductive prog :=
  | Ret (v : V)
  | RP (p : string) (k : V -> prog)
  | RQ (q : string) (k : V -> prog).

  (** A cached value: the value, whether it is still good, and the recorded index. *)
  Record cell := { c_val : V; c_good : bool; c_idx : list string }.

  (** An object: parameter values and the cache. *)
  Record object := { par : string -> V; cache : string -> option cell }.

  Definition put {A} (f : string -> A) (x : string) (a : A) : string -> A :=
    fun y => if String.eqb y x then a else f y.
  Definition store (s : object) (q : string) (c : cell) : object :=
    {| par := par s; cache := put (cache s) q (Some c) |}.
  Definition fresh (p : string -> V) : object := {| par := p; cache := fun _ => None |}.

  (** The bodies of all quantities, the cached_property attributes and the switches. *)
  Variable code : string -> prog.
  Variable permanent switch : list string.

  (** [run s c v d s']: in object [s], computation [c] returns [v], leaves the object [s']
      and records the parameters [d] for the quantities under construction.  A recalculated
      quantity may hand on its old index or what it just read: both readings of hmf are
      covered. *)
  Inductive run : object -> prog -> V -> list string -> object -> Prop :=
  | run_ret s v : run s (Ret v) v [] s
  | run_par s p k v d s' :
      run s (k (par s p)) v d s' -> run s (RP p k) v (p :: d) s'
  | run_hit s q k c v d s' :
      mem q permanent = false -> cache s q = Some c -> c_good c = true ->
      run s (k (c_val c)) v d s' -> run s (RQ q k) v (c_idx c ++ d) s'
  | run_again s q k c w d0 s1 r v d s' :
      mem q permanent = false -> cache s q = Some c -> c_good c = false ->
      run s (code q) w d0 s1 ->
      incl (c_idx c) r \/ incl d0 r ->
      run (store s1 q {| c_val := w; c_good := true; c_idx := c_idx c |}) (k w) v d s' ->
      run s (RQ q k) v (r ++ d) s'
  | run_first s q k w d0 s1 v d s' :
      mem q permanent = false -> cache s q = None ->
      run s (code q) w d0 s1 ->
      run (store s1 q {| c_val := w; c_good := true; c_idx := d0 |}) (k w) v d s' ->
      run s (RQ q k) v (d0 ++ d) s'
  | run_kept s q k c v d s' :
      mem q permanent = true -> cache s q = Some c ->
      run s (k (c_val c)) v d s' -> run s (RQ q k) v d s'
  | run_keep s q k w d0 s1 v d s' :
      mem q permanent = true -> cache s q = None ->
      run s (code q) w d0 s1 ->
      run (store s1 q {| c_val := w; c_good := true; c_idx := d0 |}) (k w) v d s' ->
      run s (RQ q k) v (d0 ++ d) s'.

  (** Reading the attribute [q]. *)
  Definition read (s : object) (q : string) (v : V) (s' : object) : Prop :=
    exists d, run s (RQ q Ret) v d s'.

  (** Setting a parameter to a value that differs from the present one. *)
  Definition touch (p q : string) (c : option cell) : option cell :=
    match c with
    | None => None
    | Some c =>
        if mem q permanent then Some c
        else if mem p (c_idx c) then
          if mem p switch then None
          else Some {| c_val := c_val c; c_good := false; c_idx := c_idx c |}
        else Some c
    end.
  Inductive update (s : object) (p : string) (v : V) : object -> Prop :=
  | update_same : par s p = v -> update s p v s
  | update_new : par s p <> v ->
      update s p v {| par := put (par s) p v; cache := fun q => touch p q (cache s q) |}.

  (** Executable version of [run], with a recursion limit (Python has one too). *)
  Fixpoint exec (n : nat) (s : object) (c : prog) : option (V * list string * object) :=
    match n with
    | O => None
    | S n =>
        match c with
        | Ret v => Some (v, [], s)
        | RP p k =>
            match exec n s (k (par s p)) with
            | Some (v, d, s') => Some (v, p :: d, s')
            | None => None
            end
        | RQ q k =>
            match cache s q with
            | Some c =>
                if mem q permanent then exec n s (k (c_val c))
                else if c_good c then
                  match exec n s (k (c_val c)) with
                  | Some (v, d, s') => Some (v, c_idx c ++ d, s')
                  | None => None
                  end
                else
                  match exec n s (code q) with
                  | Some (w, _, s1) =>
                      match exec n (store s1 q {| c_val := w; c_good := true; c_idx := c_idx c |}) (k w) with
                      | Some (v, d, s') => Some (v, c_idx c ++ d, s')
                      | None => None
                      end
                  | None => None
                  end
            | None =>
                match exec n s (code q) with
                | Some (w, d0, s1) =>
                    match exec n (store s1 q {| c_val := w; c_good := true; c_idx := d0 |}) (k w) with
                    | Some (v, d, s') => Some (v, d0 ++ d, s')
                    | None => None
                    end
                | None => None
                end
            end
        end
    end.
End Cache.
Arguments Ret {V} v.
Arguments RP {V} p k.
Arguments RQ {V} q k.
Arguments par {V} o.
Arguments cache {V} o.
Arguments c_val {V} c.
Arguments c_good {V} c.
Arguments c_idx {V} c.
Arguments store {V} s q c.
Arguments fresh {V} p.
Arguments run {V} code permanent s c v d s'.
Arguments read {V} code permanent s q v s'.
Arguments update {V} permanent switch s p v o.
Arguments touch {V} permanent switch p q c.
Arguments exec {V} code permanent n s c.

(** What a body reads, statically.  Branches are on the class of a parameter value: the
    string itself for a string option, "None" or another word for an optional array,
    "True"/"False" for a flag, the class name for a model class. *)
Inductive step :=
| P (p : string)                                  (* reads self.p, a parameter *)
| Q (q : string)                                  (* reads self.q, a quantity *)
| If (p : string) (vs : list string) (a b : list step).  (* if self.p in vs: a else: b *)

Inductive sh :=
| SRet
| SP (p : string) (s : sh)
| SQ (q : string) (s : sh)
| SIf (p : string) (vs : list string) (a b : sh).

Fixpoint comp_step (x : step) (k : sh) : sh :=
  match x with
  | P p => SP p k
  | Q q => SQ q k
  | If p vs a b =>
      SIf p vs
        ((fix go l := match l with [] => k | y :: l => comp_step y (go l) end) a)
        ((fix go l := match l with [] => k | y :: l => comp_step y (go l) end) b)
  end.
Definition comp (l : list step) : sh := fold_right comp_step SRet l.

(** Names that are not in the table are not attributes: they get the empty shape. *)
Definition shape_of (t : list (string * list step)) (q : string) : sh :=
  match find (fun e => String.eqb (fst e) q) t with
  | Some e => comp (snd e)
  | None => SRet
  end.

(** A computation that reads exactly as the shape says; [sel p v] is the class of value
    [v] of parameter [p].  What it computes from the values is left open. *)
Inductive has_shape {V} (sel : string -> V -> string) : prog V -> sh -> Prop :=
| HRet v : has_shape sel (Ret v) SRet
| HP p k s : (forall v, has_shape sel (k v) s) -> has_shape sel (RP p k) (SP p s)
| HQ q k s : (forall v, has_shape sel (k v) s) -> has_shape sel (RQ q k) (SQ q s)
| HIf p vs k a b :
    (forall v, has_shape sel (k v) (if mem (sel p v) vs then a else b)) ->
    has_shape sel (RP p k) (SIf p vs a b).
