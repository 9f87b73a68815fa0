(** Model of cosmosis_modules/pk_to_real/pk_to_real_ogata.py.  Definitions only.  The sections of
    the data block, the bin settings and load_kernel are those of pk_to_real.py ([RsModel]);
    [ht nu f k] is hankel.HankelTransform(nu, 20, pi/20).transform(f, k)[0]. *)
From Verif Require Import Base Quad Interp FftModel RsModel.
Open Scope R_scope.

(** 40-76  projected_corr.__init__. *)
Record ogata := { o_n : nat; o_mu : R; o_rp : A1; o_lo : R; o_hi : R }.
Definition make_ogata (ty : string) (n : nat) (k_min k_max rp_min rp_max : R) : res ogata :=
  if Nat.ltb n 2 then Err "IndexError" else
  let k := logspace (log10 k_min) (log10 k_max) n in
  let dlogr := ln (k 1%nat) - ln (k 0%nat) in
  qmu <- transform_parameters ty ;;
  let nc := /2 * (INR n + 1) in
  let log_kmid := /2 * (ln k_min + ln k_max) in
  let k_mid := exp log_kmid in
  let r_mid := 1 / k_mid in
  Ok {| o_n := n; o_mu := snd qmu; o_rp := fun x => exp ((INR x - nc) * dlogr) * r_mid; o_lo := rp_min; o_hi := rp_max |}.
(** 76  self.range. *)
Definition o_in_range (O : ogata) (i : nat) : bool :=
  (if Rlt_dec (o_lo O) (o_rp O i) then true else false) && (if Rlt_dec (o_rp O i) (o_hi O) then true else false).
Definition o_kept (O : ogata) : list nat := filter (o_in_range O) (seq 0 (o_n O)).
(** 79-90  evaluate: separations and values in range. *)
Section Transform.
  Variable ht : R -> (R -> R) -> R -> R.
  Definition ogata_xi (O : ogata) (n_in : nat) (k_in pk_in : A1) (i : nat) : R :=
    let integ x := interp_lin n_in k_in pk_in (x / o_rp O i) * x in
    ht (o_mu O) integ 1 / (2 * PI * o_rp O i ^ 2).
  Definition ogata_evaluate (O : ogata) (n_in : nat) (k_in pk_in : A1) : list (R * R) :=
    map (fun i => (o_rp O i, ogata_xi O n_in k_in pk_in i)) (o_kept O).

  (** 149-176  one bin of projection.transform (an empty redshift axis is an error). *)
  Definition ogata_bin (O : ogata) (J : job) (sections : string -> option pk_section) (ns : nz_section) (i : nat) : res (list R * list R) :=
    name <- (match j_suffixes J with
             | Some l => match nth_error l i with Some s => Ok (j_input J ++ "_" ++ s)%string | None => Err "IndexError" end
             | None => Ok (j_input J)
             end) ;;
    s <- (match sections name with Some s => Ok s | None => Err "BlockNameNotFound" end) ;;
    if Nat.eqb (s_nz s) 0 then Err "UnboundLocalError" else
    let rows j := ogata_evaluate O (s_nk s) (s_k s) (s_pk s j) in
    f <- (match n_bin ns (S i) with Some f => Ok f | None => Err "BlockNameNotFound" end) ;;
    let xi j x := snd (nth x (rows j) (0, 0)) in
    let nz j := load_kernel ns f (s_z s j) in
    let out x := simpson (s_nz s) (fun j => nz j * xi j x) (s_z s) in
    Ok (map (fun i => o_rp O i) (o_kept O), map out (seq 0 (List.length (o_kept O)))).
  (** 139-188  projection.transform: separations and one list of values per bin. *)
  Definition ogata_project (O : ogata) (J : job) (sections : string -> option pk_section) (ns : option nz_section) : res (list R * list (list R)) :=
    nbins <- (match j_suffixes J with Some l => Ok (List.length l) | None => match j_nbin J with Some n => Ok n | None => Err "BlockNameNotFound" end end) ;;
    match ns with
    | None => if Nat.eqb nbins 0 then Err "UnboundLocalError" else Err "BlockNameNotFound"
    | Some ns =>
        outs <- collect nbins (ogata_bin O J sections ns) ;;
        match List.rev outs with [] => Err "UnboundLocalError" | o :: _ => Ok (fst o, map snd outs) end
    end.
End Transform.

(** 201-213  setup; 24-37  the default sections. *)
Definition ogata_setup (ty : string) (n : nat) (k_min k_max rp_min rp_max : R) : res ogata :=
  if existsb (String.eqb ty) ["wp"; "ds"]%string then make_ogata ty n k_min k_max rp_min rp_max else Err "ValueError".
Definition ogata_input (ty given : string) : string :=
  if String.eqb given "" then (if String.eqb ty "ds" then "matter_galaxy_power" else "galaxy_power")%string else given.
