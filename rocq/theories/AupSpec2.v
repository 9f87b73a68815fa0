(** Vocabulary of the comparison between add_and_upsample.py and src/onepower/add.py. *)
From Coq Require Import ZArith.
From Verif Require Import Base Interp HodModel PkModel AddModel AupModel AupSpec.
Open Scope R_scope.

(** The population [o] has spectrum [p] on [z] and [k], in bin [b]. *)
Definition population (A : api) (o : obj A) (s : spectrum) (b : nat) (z k : list R) (p : list (list R)) : Prop :=
  o_nz A o = List.length z /\ (forall j, (j < List.length z)%nat -> o_z A o j = nth j z 0) /\
  o_nk A o = List.length k /\ (forall i, (i < List.length k)%nat -> o_k A o i = nth i k 0) /\
  exists P, o_spec A o (mode_name s) = Ok P /\ forall j i, (j < List.length z)%nat -> (i < List.length k)%nat -> pk_tot P b j i = cell p j i.
(** The request [u] asks for the output grid, the fraction and the fill of the module. *)
Definition same_request {A : api} (u : uparams A) (ze ke zf ff : list R) (beyond : bool) : Prop :=
  u_nz u = List.length ze /\ (forall j, (j < List.length ze)%nat -> u_z u j = nth j ze 0) /\
  u_nk u = List.length ke /\ (forall i, (i < List.length ke)%nat -> u_k u i = nth i ke 0) /\
  u_fz u = Some (List.length zf, fun i => nth i zf 0) /\ u_f u = Some (List.length zf, fun i => nth i ff 0) /\
  u_fill u = (if beyond then Extrapolate else FillValue 0).

