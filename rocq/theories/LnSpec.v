(** Vocabulary for the statements about the legacy HOD module without a loop. *)
From Verif Require Import Base OptModel ChainModel PipeSpec LiaSpec LhSpec LnModel.
Open Scope R_scope.

(** A Component that refuses a name which is no default; one that takes these names as well. *)
Definition strict (component : list string -> list string -> res unit) : Prop :=
  forall defaults names n, In n names -> ~ In n defaults -> component defaults names = Err "ValueError"%string.
Definition takes (component : list string -> list string -> res unit) (more : list string) : Prop :=
  forall defaults names, (forall n, In n names -> In n defaults \/ In n more) -> component defaults names = Ok tt.
(** The argument [p] is what section [v] has for it: a number, or an array over the bins. *)
Definition given (b : dblock) (v model : string) (bins : nat) (kw : list (string * karg)) (p : string) : Prop :=
  if String.eqb model "Cacciato" then exists x, In (p, KNum (Some x)) kw /\ reads b v p x
  else exists l, In (p, KArr l) kw /\ List.length l = bins /\ forall k, (k < bins)%nat -> reads b v (PipeSpec.bin_name p bins k) (nth k l 0).
(** Only the four labels were added. *)
Definition only_labels (b b' : dblock) (sec osec : string) : Prop :=
  forall s n, ~ (s = sec /\ (n = "nbins" \/ n = "observable_z")%string) -> ~ (s = osec /\ (n = "obs_func_definition" \/ n = "observable_mode")%string) -> b' s n = b s n.
