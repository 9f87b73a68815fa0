(** Model of cosmosis_modules/pk_to_real/pk_to_real.py, correct_cosmo_real.py and
    cosmosis_modules/convert_theta/convert_theta.py.  Definitions only. *)
From Coq Require Import ZArith.
From Verif Require Import Base Quad Interp FftModel.
Open Scope R_scope.

(** ** pk_to_real.py *)
(** np.all(spec > 0), np.all(spec < 0). *)
Definition all_pos (n : nat) (p : A1) : bool := forallb (fun i => if Rlt_dec 0 (p i) then true else false) (seq 0 n).
Definition all_neg (n : nat) (p : A1) : bool := forallb (fun i => if Rlt_dec (p i) 0 then true else false) (seq 0 n).
(** 38-69  LogInterp(angle, spec, 'linear')(q). *)
Definition log_interp (n : nat) (k p : A1) (q : R) : R :=
  let lk i := ln (k i) in
  if all_pos n p then exp (interp_lin n lk (fun i => ln (p i)) (ln q))
  else if all_neg n p then - exp (interp_lin n lk (fun i => ln (- p i)) (ln q))
  else interp_lin n lk p (ln q).

(** 32-35  _TRANSFORM_PARAMETERS: (q, mu). *)
Definition transform_parameters (ty : string) : res (R * R) :=
  if String.eqb ty "wp" then Ok (0, 0) else if String.eqb ty "ds" then Ok (0, 2) else Err "KeyError".

(** 72-127  Transformer. *)
Record transformer := { t_n : nat; t_k : A1; t_q : R; t_mu : R; t_kr : R; t_xsave : cells; t_rp : A1; t_lo : R; t_hi : R }.
Definition make_transformer (lgr lgi : R -> R -> R) (ty : string) (n : nat) (k_min k_max rp_min rp_max : R) : res transformer :=
  if Nat.ltb n 2 then Err "IndexError" else
  let k := logspace (log10 k_min) (log10 k_max) n in
  let dlogr := ln (k 1%nat) - ln (k 0%nat) in
  qmu <- transform_parameters ty ;;
  krx <- fhti lgr lgi n (snd qmu) dlogr (fst qmu) 1 1 ;;
  let nc := /2 * (INR n + 1) in
  let log_kmid := /2 * (ln k_min + ln k_max) in
  let k_mid := exp log_kmid in
  let r_mid := fst krx / k_mid in
  Ok {| t_n := n; t_k := k; t_q := fst qmu; t_mu := snd qmu; t_kr := fst krx; t_xsave := snd krx;
        t_rp := fun x => exp ((INR x - nc) * dlogr) * r_mid; t_lo := rp_min; t_hi := rp_max |}.
(** 127  self.range. *)
Definition in_range (T : transformer) (i : nat) : bool :=
  (if Rlt_dec (t_lo T) (t_rp T i) then true else false) && (if Rlt_dec (t_rp T i) (t_hi T) then true else false).
Definition kept (T : transformer) : list nat := filter (in_range T) (seq 0 (t_n T)).
(** 130-145  __call__: separations and values in range. *)
Definition transform (T : transformer) (n_in : nat) (k_in pk_in : A1) : res (list (R * R)) :=
  let pk i := log_interp n_in k_in pk_in (t_k T i) in
  let a i := t_k T i * pk i in
  xi <- (if Req_EM_T (t_q T) 0 then fht (t_n T) a (t_xsave T) (-1) else fhtq (t_n T) a (t_xsave T) (-1)) ;;
  Ok (map (fun i => (t_rp T i, xi i / (2 * PI) / t_rp T i)) (kept T)).

(** 201-262  CosmosisTransformer.__call__.  A power spectrum section and an n(z) section. *)
Record pk_section := { s_nz : nat; s_z : A1; s_nk : nat; s_k : A1; s_pk : A2 }.
Record nz_section := { n_size : nat; n_z : A1; n_bin : nat -> option A1 }.
Record job := { j_type : string; j_suffixes : option (list string); j_input : string; j_nbin : option nat }.
(** 264-271  load_kernel: linear interpolation, 0 outside. *)
Definition load_kernel (s : nz_section) (f : A1) (z : R) : R := interp1d (FillValue 0) (n_size s) (n_z s) f z.
(** mapM in a loop. *)
Fixpoint collect {A} (n : nat) (f : nat -> res A) : res (list A) :=
  match n with O => Ok [] | S k => l <- collect k f ;; x <- f k ;; Ok (l ++ [x])%list end.
(** 208-213  np.unique of the mean density; several distinct values do not broadcast. *)
Definition mean_density (ty : string) (rho : nat * A1) : res R :=
  if String.eqb ty "ds" then
    if Nat.eqb (fst rho) 0 then Err "ValueError"
    else if forallb (fun i => if Req_EM_T (snd rho i) (snd rho 0%nat) then true else false) (seq 0 (fst rho)) then Ok (snd rho 0%nat) else Err "ValueError"
  else Ok 1.
(** 221-250  one bin. *)
Definition one_bin (T : transformer) (J : job) (rho : R) (sections : string -> option pk_section) (ns : nz_section) (i : nat) : res (list R * list R) :=
  name <- (match j_suffixes J with
           | Some l => match nth_error l i with Some s => Ok (j_input J ++ "_" ++ s)%string | None => Err "IndexError" end
           | None => Ok (j_input J)
           end) ;;
  s <- (match sections name with Some s => Ok s | None => Err "BlockNameNotFound" end) ;;
  if Nat.eqb (s_nz s) 0 then Err "UnboundLocalError" else
  rows <- collect (s_nz s) (fun j => transform T (s_nk s) (s_k s) (s_pk s j)) ;;
  f <- (match n_bin ns (S i) with Some f => Ok f | None => Err "BlockNameNotFound" end) ;;
  let xi j x := snd (nth x (nth j rows []) (0, 0)) in
  let nz j := load_kernel ns f (s_z s j) in
  let out x := simpson (s_nz s) (fun j => nz j * xi j x * rho) (s_z s) in
  let out x := if String.eqb (j_type J) "ds" then out x / 10 ^ 12 else out x in
  Ok (map (fun i => t_rp T i) (kept T), map out (seq 0 (List.length (kept T)))).
Definition project (T : transformer) (J : job) (rho : nat * A1) (sections : string -> option pk_section) (ns : option nz_section) : res (list R * list (list R)) :=
  rho <- mean_density (j_type J) rho ;;
  ns <- (match ns with Some ns => Ok ns | None => Err "BlockNameNotFound" end) ;;
  nbins <- (match j_suffixes J with Some l => Ok (List.length l) | None => match j_nbin J with Some n => Ok n | None => Err "BlockNameNotFound" end end) ;;
  outs <- collect nbins (one_bin T J rho sections ns) ;;
  match List.rev outs with [] => Err "UnboundLocalError" | o :: _ => Ok (fst o, map snd outs) end.

(** ** correct_cosmo_real.py *)
(** What astropy gives for a cosmology. *)
Record cosmo := { c_h : R; c_dist : R -> R; c_e : R -> R; c_da : R -> R; c_da12 : R -> R -> R }.
Record corr_block := { b_bins : nat -> A1; b_rp : A1 }.
(** 75-96  the two ratios of a bin. *)
Definition ratio_rp (run data : cosmo) (z : R) : R := c_dist run z / c_dist data z * (c_h run / c_h data).
Definition ratio_corr (run data : cosmo) (ty : string) (z : R) : res R :=
  if String.eqb ty "wp" then Ok (c_e data z / c_e run z * (c_h data / c_h run))
  else if String.eqb ty "ds" then
    let z_s := 6 / 10 in
    Ok (c_da data z_s * c_da12 run z z_s * c_da run z / (c_da run z_s * c_da12 data z z_s * c_da data z) * (c_h run / c_h data))
  else Err "ValueError".
(** 70-102  the loop over bins; the state is what the block holds when the call ends. *)
Fixpoint correct_loop (run data : cosmo) (ty : string) (z : list R) (i : nat) (b : corr_block) : corr_block * res unit :=
  match z with
  | [] => (b, Ok tt)
  | zi :: t =>
      match ratio_corr run data ty zi with
      | Err e => (b, Err e)
      | Ok rc =>
          let ratio := ratio_rp run data zi in
          correct_loop run data ty t (S i)
            {| b_bins := fun j x => if Nat.eqb j i then b_bins b i x * rc else b_bins b j x; b_rp := fun x => b_rp b x * ratio |}
      end
  end.
(** 47-104  execute. *)
Definition correct (run data : cosmo) (nbins : nat) (ty : string) (z : list R) (b : corr_block) : corr_block * res unit :=
  if Nat.eqb (List.length z) nbins then correct_loop run data ty z 0 b else (b, Err "ValueError").

(** ** convert_theta.py *)
(** Size in radians of the units astropy knows; [other] stands for the units not listed here. *)
Definition unit_size (other : string -> option R) (u : string) : option R :=
  if String.eqb u "rad" then Some 1 else if String.eqb u "deg" then Some (PI / 180)
  else if String.eqb u "arcmin" then Some (PI / 10800) else if String.eqb u "arcsec" then Some (PI / 648000) else other u.
(** 6-18  setup. *)
Definition theta_setup (output_units : string) : res string :=
  if existsb (String.eqb output_units) ["rad"; "deg"; "arcmin"; "arcsec"]%string then Ok output_units else Err "ValueError".
(** 21-36  execute on (values, unit). *)
Definition theta_execute (other : string -> option R) (output_units : string) (st : A1 * string) : res (A1 * string) :=
  let u := if orb (String.eqb (snd st) "radian") (String.eqb (snd st) "radians") then "rad"%string else snd st in
  match unit_size other u, unit_size other output_units with
  | Some a, Some b => Ok (fun i => fst st i * (a / b), output_units)
  | _, _ => Err "UnitConversionError"
  end.
