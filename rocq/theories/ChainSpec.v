(** Vocabulary for the chain of modules that exchange values through the data block. *)
From Coq Require Import ZArith Decimal DecimalString.
From Verif Require Import Base Quad Interp FftModel RsModel RsSpec OgataModel PipeModel OptModel ChainModel.
Open Scope R_scope.

(** Name of the entry of a bin, counted from 1. *)
Definition nth_bin (i : nat) : string := ("bin_" ++ NilEmpty.string_of_uint (Nat.to_uint i))%string.
(** The entries a projection module writes besides the bins. *)
Definition header : list string := ["nbin"; "sample"; "rp"; "sep_name"; "save_name"]%string.
(** b' is b, except for the first n bins and the header of one section. *)
Definition only_section (out : string) (n : nat) (b b' : dblock) : Prop :=
  forall s k, s <> out \/ (~ In k header /\ forall i, (1 <= i <= n)%nat -> k <> nth_bin i) -> b' s k = b s k.
(** The option is absent, or a string. *)
Definition text_option (o : options) (n : string) : Prop := o n = None \/ exists s, o n = Some (OStr s).
Definition text_or (o : options) (n d : string) : string :=
  match o n with Some (OStr s) => if string_dec s "" then d else s | _ => d end.
Definition number_option (o : options) (n : string) : Prop := o n = None \/ (exists z, o n = Some (OInt z)) \/ exists x, o n = Some (ODbl x).
Definition number_or (o : options) (n : string) (d : R) : R :=
  match o n with Some (OInt z) => IZR z | Some (ODbl x) => x | _ => d end.
Definition count_option (o : options) (n : string) : Prop := o n = None \/ exists z, o n = Some (OInt z).
Definition count_or (o : options) (n : string) (d : Z) : Z := match o n with Some (OInt z) => z | _ => d end.
(** A section holds the table t on the axes z and k. *)
Definition holds_grid (b : dblock) (s : string) (g : (nat * A1) * (nat * A1)) (key : string) (t : nat -> nat -> R) : Prop :=
  b s "z"%string = Some (BArr (map (snd (fst g)) (seq 0 (fst (fst g))))) /\
  b s "k_h"%string = Some (BArr (map (snd (snd g)) (seq 0 (fst (snd g))))) /\
  b s key = Some (BTab (map (fun i => map (t i) (seq 0 (fst (snd g)))) (seq 0 (fst (fst g))))).
(** The suffixes under which the pipeline numbers n bins; none when there is one. *)
Definition matching_suffixes (n : nat) (l : option (list string)) : Prop :=
  (n = 1%nat /\ l = None) \/ (n <> 1%nat /\ l = Some (map (fun i => NilEmpty.string_of_uint (Nat.to_uint (S i))) (seq 0 n))).
(** The cosmological parameters correct_cosmo_real.py needs. *)
Definition cosmo_names : list string := ["hubble"; "omega_b"; "omega_m"; "mnu"; "w"; "wa"]%string.
Definition numeric (v : option bval) : Prop := (exists x, v = Some (BDbl x)) \/ exists n, v = Some (BInt n).
Definition has_cosmology (b : dblock) : Prop :=
  (forall n, In n cosmo_names -> numeric (b "cosmological_parameters"%string n)) /\
  (b "cosmological_parameters"%string "tcmb"%string = None \/ numeric (b "cosmological_parameters"%string "tcmb"%string)).
Definition num_of (v : option bval) : R := match v with Some (BDbl x) => x | Some (BInt n) => IZR n | _ => 0 end.
(** CMB temperature (2.7255 K unless given) and the six parameters. *)
Definition cosmo_args (b : dblock) : list R :=
  (match b "cosmological_parameters"%string "tcmb"%string with None => 27255 / 10000 | v => num_of v end)
  :: map (fun n => num_of (b "cosmological_parameters"%string n)) cosmo_names.
(** The sizes of the two lists agree, and a * x = b * y at every place. *)
Definition scaled (a b : R) (x y : list R) : Prop := List.length x = List.length y /\ forall i, (i < List.length x)%nat -> nth i x 0 * a = nth i y 0 * b.
(** Entries of the output section, given the separations and the list of bins. *)
Definition wrote (p : proj) (name : string) (r : list R * list (list R)) (b b' : dblock) : Prop :=
  (1 <= List.length (snd r))%nat /\
  (forall i, (i < List.length (snd r))%nat -> b' (q_output p) (nth_bin (S i)) = Some (BArr (nth i (snd r) []))) /\
  b' (q_output p) "nbin"%string = Some (BInt (Z.of_nat (List.length (snd r)))) /\ b' (q_output p) "sample"%string = Some (BStr (q_sample p)) /\
  b' (q_output p) "rp"%string = Some (BArr (fst r)) /\ b' (q_output p) "sep_name"%string = Some (BStr "rp") /\
  b' (q_output p) "save_name"%string = Some (BStr name) /\ only_section (q_output p) (List.length (snd r)) b b'.

(** The settings a set of options gives. *)
Definition proj_of (o : options) (suffixes : option (list string)) (ty sample : string) : proj :=
  {| q_type := ty; q_input := text_or o "input_section_name" (if string_dec ty "ds" then "matter_galaxy_power" else "galaxy_power")%string;
     q_output := text_or o "output_section_name" ty; q_suffixes := suffixes; q_sample := sample |}.
(** What read_pk sees of a grid. *)
Definition section_is (s : pk_section) (g : (nat * A1) * (nat * A1)) (t : nat -> nat -> R) : Prop :=
  s_nz s = fst (fst g) /\ s_nk s = fst (snd g) /\ (forall j, (j < s_nz s)%nat -> s_z s j = snd (fst g) j) /\
  (forall l, (l < s_nk s)%nat -> s_k s l = snd (snd g) l) /\ forall j l, (j < s_nz s)%nat -> (l < s_nk s)%nat -> s_pk s j l = t j l.
(** Everything the projection of a block reads is there. *)
Definition bins_present (p : proj) (b : dblock) (nb : nat) : Prop :=
  exists ns, read_nz b (q_sample p) = Some ns /\
  forall i, (i < nb)%nat -> exists name s f, section_name (job_of p b) i = Some name /\ read_pk b name = Some s /\ n_bin ns (S i) = Some f /\ (1 <= s_nz s)%nat.
