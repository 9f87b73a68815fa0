(** Properties C32 and C36: options and the align_params dictionary. *)
From Verif Require Import Base HodModel PkModel PkSpec PkExample Validate ConfSpec ConfFacts.
Open Scope string_scope.

(** * C32 *)

(** Construction succeeds exactly for the documented combinations, and then keeps the
    values; otherwise it raises ValueError. *)
Theorem C32_construction :
  forall m i,
    (documented m i <-> new_conf m i = Ok {| cf_mode := m; cf_ingr := i |}) /\
    (~ documented m i <-> new_conf m i = Err "ValueError").
Proof. exact construction. Qed.
Print Assumptions C32_construction.

(** Whatever sequence of accepted updates follows, the configuration is documented. *)
Theorem C32_updates :
  forall c, configured c -> documented (cf_mode c) (cf_ingr c).
Proof. exact configured_documented. Qed.
Print Assumptions C32_updates.

(** An update is accepted exactly when every value given is in its list and the resulting
    pair is documented; the last value given for each option is the one kept. *)
Theorem C32_update_exact :
  forall c l, configured c ->
    let m := last_mode (cf_mode c) l in let i := last_ingr (cf_ingr c) l in
    (update_conf c l = ({| cf_mode := m; cf_ingr := i |}, Ok tt) <->
      documented m i /\
      (forall v, In (SetMode v) l -> In v [PStr "bnl"; PStr "hmcode"; PStr "fortuna"; PNone]) /\
      (forall v, In (SetIngr v) l ->
         In v [PStr "mead2020_feedback"; PStr "mead2020"; PStr "fit"; PNone])) /\
    (snd (update_conf c l) = Ok tt \/ snd (update_conf c l) = Err "ValueError").
Proof. exact update_exact. Qed.
Print Assumptions C32_update_exact.

(** A rejected update is not undone: the object is left in the rejected configuration and
    its matter spectrum then fails on an unbound local variable. *)
Theorem C32_rejected_update_refuted :
  exists c l c' S, configured c /\ update_conf c l = (c', Err "ValueError") /\
    ~ documented (cf_mode c') (cf_ingr c') /\ good_inputs S /\
    s_mode S = mode_of (cf_mode c') /\ s_ingr S = ingr_of (cf_ingr c') /\
    power_spectrum_mm S = Err "UnboundLocalError".
Proof. exact rejected_update. Qed.
Print Assumptions C32_rejected_update_refuted.

(** In every reachable configuration, with array inputs of the right size, all six spectra
    are computed. *)
Theorem C32_spectra_defined :
  forall c S, configured c -> s_mode S = mode_of (cf_mode c) -> s_ingr S = ingr_of (cf_ingr c) ->
    good_inputs S ->
    (exists r, power_spectrum_mm S = Ok r) /\ (exists r, power_spectrum_gg S = Ok r) /\
    (exists r, power_spectrum_gm S = Ok r) /\ (exists r, power_spectrum_mi S = Ok r) /\
    (exists r, power_spectrum_ii S = Ok r) /\ (exists r, power_spectrum_gi S = Ok r).
Proof. exact configured_spectra. Qed.
Print Assumptions C32_spectra_defined.

(** The alignment options. *)
Theorem C32_alignment_options :
  (forall v, ia_depends_on v = Ok v <-> v = PStr "constant" \/ v = PStr "luminosity" \/ v = PStr "halo_mass") /\
  (forall v, ia_method v = Ok v <-> v = PStr "hankel" \/ v = PStr "fftlog") /\
  (forall v e, ia_depends_on v = Err e \/ ia_method v = Err e -> e = "ValueError").
Proof. exact alignment_options. Qed.
Print Assumptions C32_alignment_options.

(** Turning hmcode on in two steps, and a well-shaped input set. *)
Example C32_case :
  new_conf (PStr "hmcode") PNone = Err "ValueError" /\
  new_conf (PStr "hmcode ") (PStr "mead2020") = Err "ValueError" /\
  configured {| cf_mode := PStr "hmcode"; cf_ingr := PStr "mead2020" |} /\
  update_conf {| cf_mode := PNone; cf_ingr := PNone |} [SetMode (PStr "hmcode"); SetIngr (PStr "mead2020")]
  = ({| cf_mode := PStr "hmcode"; cf_ingr := PStr "mead2020" |}, Ok tt) /\
  good_inputs ex_S.
Proof.
  split; [reflexivity|]. split; [reflexivity|]. split.
  - eapply updated; [apply (built PNone PNone); reflexivity|].
    instantiate (1 := [SetMode (PStr "hmcode"); SetIngr (PStr "mead2020")]). reflexivity.
  - split; [reflexivity|]. exact ex_good.
Qed.

(** * C36 *)

(** Any number of alignment computations, by any objects sharing any dictionaries: each
    one passes on its own six entries over what the caller put there; keys other than the
    six are never changed; dictionaries nobody attached are never changed. *)
Theorem C36_shared_dictionaries :
  forall (V : Type) (fftlog : V) (l : list (nat * own)) (h : heap),
    (forall i r o, nth_error l i = Some (r, o) ->
       exists d, nth_error (snd (aligns fftlog h l)) i = Some d /\
         dget d "z_vec" = Some (o_z o) /\ dget d "mass_in" = Some (o_mass o) /\
         dget d "c_in" = Some (o_c o) /\ dget d "r_s_in" = Some (o_rs o) /\
         dget d "rvir_in" = Some (o_rvir o) /\ dget d "method" = Some fftlog /\
         forall k, ~ In k own_keys -> dget d k = dget (h r) k) /\
    (forall x k, ~ In k own_keys -> dget (fst (aligns fftlog h l) x) k = dget (h x) k) /\
    (forall x, ~ In x (map fst l) -> fst (aligns fftlog h l) x = h x).
Proof. exact @shared_dictionaries. Qed.
Print Assumptions C36_shared_dictionaries.

(** A non-empty dictionary is shared with the object, an empty one is left empty. *)
Theorem C36_attached :
  forall (V : Type) (h : @heap V) new r, r <> new ->
    (h r <> [] -> attach h new (Some r) = (h, r)) /\
    (h r = [] -> forall fftlog os,
       fst (aligns fftlog (fst (attach h new (Some r)))
              (map (fun o => (snd (attach h new (Some r)), o)) os)) r = []).
Proof. exact @attached. Qed.
Print Assumptions C36_attached.

(** So the caller's dictionary is changed, and a requested method is overridden. *)
Theorem C36_unchanged_refuted :
  exists (h : @heap string) r new o, h r <> [] /\ r <> new /\
    let (h1, a) := attach h new (Some r) in
    let (h2, kwargs) := align "fftlog" h1 a o in
    dget (h r) "method" = Some "hankel" /\ dget kwargs "method" = Some "fftlog" /\
    dget (h2 r) "method" = Some "fftlog" /\ dget (h r) "z_vec" = None /\ dget (h2 r) "z_vec" = Some "z".
Proof. exact caller_changed. Qed.
Print Assumptions C36_unchanged_refuted.

(** Two objects share a dictionary, the first computes again after the second. *)
Example C36_case :
  let o := fun s => {| o_z := s; o_mass := s; o_c := s; o_rs := s; o_rvir := s |} in
  map (fun d => (dget d "z_vec", dget d "gamma_1h_amplitude"))
    (snd (aligns "fftlog" (fun _ => [("gamma_1h_amplitude", "0.01")]) [(0%nat, o "a"); (0%nat, o "b"); (0%nat, o "a")]))
  = [(Some "a", Some "0.01"); (Some "b", Some "0.01"); (Some "a", Some "0.01")].
Proof. reflexivity. Qed.
