(** Model of cosmosis_modules/legacy/add_and_upsample/add_and_upsample.py.  Definitions only.
    Simplified: wavenumbers are positive and the nodes of a table increase; tables whose shapes
    do not fit their axes are refused with ValueError, also where numpy would broadcast a single
    row or column, and so are tables with one node; the data block has no booleans, observable_z is an integer that is zero or
    not; the messages are left out.  extrapolate_nan (38-53) is not called. *)
From Coq Require Import ZArith.
From Verif Require Import Base Interp FftModel RsModel PipeModel OptModel ChainModel PredModel.
Open Scope R_scope.

(** block[s, n] where an integer is expected. *)
Definition int_at (b : dblock) (s n : string) : res Z :=
  match b s n with Some (BInt v) => Ok v | Some _ => Err "TypeError" | None => Err "BlockNameNotFound" end.
Definition table_at (b : dblock) (s n : string) : res (list (list R)) :=
  match b s n with Some (BTab l) => Ok l | Some _ => Err "TypeError" | None => Err "BlockNameNotFound" end.
(** The entry of row [j] and column [i]. *)
Definition entry (p : list (list R)) (j i : nat) : R := nth i (nth j p []) 0.
(** The shape interp1d demands along both axes. *)
Definition fits (z k : list R) (p : list (list R)) : bool :=
  (Nat.leb 2 (List.length z) && Nat.leb 2 (List.length k) && Nat.eqb (List.length p) (List.length z)
   && forallb (fun r => Nat.eqb (List.length r) (List.length k)) p)%bool.
(** np.sum. *)
Definition total (p : list (list R)) : R := fold_right (fun r s => fold_right Rplus 0 r + s) 0 p.
Definition negate (p : list (list R)) : list (list R) := map (map (fun x => x * -1)) p.

(** 86-90, 129-133  interpolation in redshift, then in the logarithm of the wavenumber. *)
Definition resample (f : fill) (z k : list R) (p : list (list R)) (ze ke : list R) : list (list R) :=
  map (fun zq => map (fun kq =>
    interp1d Extrapolate (List.length k) (fun i => log10 (at_ k i))
      (fun i => interp1d f (List.length z) (at_ z) (fun j => entry p j i) zq) (log10 kq)) ke) ze.
(** 75-79 and 107-109, 123-127 and 150-152  the sign is taken out and put back. *)
Definition signed_resample (f : fill) (z k : list R) (p : list (list R)) (ze ke : list R) : res (list (list R)) :=
  if fits z k p then
    if Rlt_dec (total p) 0 then Ok (negate (resample f z k (negate p) ze ke)) else Ok (resample f z k p ze ke)
  else Err "ValueError".

(** 115-133, 150-152  extrapolate_power up to the writing. *)
Definition extrapolated (b : dblock) (sec : string) (f : fill) (ze ke : list R) : res (list (list R)) :=
  k <- array b sec "k_h" ;; z <- array b sec "z" ;; p <- table_at b sec "p_k" ;;
  signed_resample f z k p ze ke.

(** 66-69  red and blue at one redshift and wavenumber. *)
Definition mix2 (power_section : string) (f r bl : R) : R :=
  if existsb (String.eqb power_section) ["intrinsic_power"; "galaxy_power"; "galaxy_intrinsic_power"]%string
  then f ^ 2 * r + (1 - f) ^ 2 * bl else f * r + (1 - f) * bl.
Definition same_shape (p q : list (list R)) : bool :=
  (Nat.eqb (List.length p) (List.length q)
   && forallb (fun j => Nat.eqb (List.length (nth j p [])) (List.length (nth j q []))) (seq 0 (List.length p)))%bool.
Definition mixture (power_section : string) (f : nat -> R) (p q : list (list R)) : list (list R) :=
  map (fun j => map (fun i => mix2 power_section (f j) (entry p j i) (entry q j i))
                    (seq 0 (List.length (nth j p [])))) (seq 0 (List.length p)).
(** 252-281, 56-90 and 107-109  the fraction at the redshifts of the red table, the mixture and
    its resampling, up to the writing. *)
Definition combined (zf ff : list R) (b : dblock) (power_section red blue : string) (f : fill) (ze ke : list R)
  : res (list (list R)) :=
  zh <- array b (power_section ++ red) "z" ;;
  u <- (if (Nat.leb 2 (List.length zf) && Nat.eqb (List.length zf) (List.length ff))%bool then Ok tt else Err "ValueError") ;;
  k <- array b (power_section ++ red) "k_h" ;;
  z <- array b (power_section ++ red) "z" ;;
  p <- table_at b (power_section ++ red) "p_k" ;;
  q <- table_at b (power_section ++ blue) "p_k" ;;
  u' <- (if (same_shape p q && Nat.eqb (List.length p) (List.length zh))%bool then Ok tt else Err "ValueError") ;;
  let fr := fun j => interp1d Extrapolate (List.length zf) (at_ zf) (at_ ff) (at_ zh j) in
  signed_resample f z k (mixture power_section fr p q) ze ke.

(** ** setup, 159-194 *)
Record aconfig := { a_fred : option (list R * list R); a_mm : oval; a_gg : oval; a_gm : oval; a_mI : oval; a_II : oval;
  a_gI : oval; a_ext : string; a_red : string; a_blue : string; a_hext : string; a_hred : string; a_hblue : string }.
(** option == s. *)
Definition is_str (s : string) (v : oval) : bool := match v with OStr t => String.eqb t s | _ => false end.
(** 190-192. *)
Definition suffix_of (n : string) : string := if String.eqb n "" then ""%string else ("_" ++ n)%string.
Section AupSetup.
  Variables missing wrong : string.
  (** np.loadtxt(_, unpack=True) into two names. *)
  Variable loadtxt : oval -> res (list R * list R).
  Variable o : options.
  (** options[option_section, n]. *)
  Definition option_at (n : string) : res oval := match o n with Some v => Ok v | None => Err missing end.
  Definition aup_setup : res aconfig :=
    mm <- option_at "do_p_mm" ;; gg <- option_at "do_p_gg" ;; gm <- option_at "do_p_gm" ;;
    mI <- option_at "do_p_mI" ;; II <- option_at "do_p_II" ;; gI <- option_at "do_p_gI" ;;
    fred <- (if existsb (is_str "add_and_extrapolate") [gg; gm; mI; II; gI]
             then file <- option_at "f_red_file" ;; t <- loadtxt file ;; Ok (Some t) else Ok None) ;;
    he <- get_string missing wrong o "hod_section_name_extrap" (Some "hod"%string) ;;
    hr <- get_string missing wrong o "hod_section_name_red" (Some "hod_red"%string) ;;
    hb <- get_string missing wrong o "hod_section_name_blue" (Some "hod_blue"%string) ;;
    ne <- get_string missing wrong o "input_power_suffix_extrap" (Some ""%string) ;;
    nr <- get_string missing wrong o "input_power_suffix_red" (Some "red"%string) ;;
    nb <- get_string missing wrong o "input_power_suffix_blue" (Some "blue"%string) ;;
    Ok {| a_fred := fred; a_mm := mm; a_gg := gg; a_gm := gm; a_mI := mI; a_II := II; a_gI := gI;
          a_ext := suffix_of (lower ne); a_red := suffix_of (lower nr); a_blue := suffix_of (lower nb);
          a_hext := lower he; a_hred := lower hr; a_hblue := lower hb |}.
End AupSetup.

(** ** execute, 196-283 *)
(** The five spectra in the order of the loops, 225-234 and 252-281. *)
Definition spectra_options (c : aconfig) : list (oval * string) :=
  [(a_gg c, "galaxy_power"); (a_gm c, "matter_galaxy_power"); (a_mI c, "matter_intrinsic_power");
   (a_II c, "intrinsic_power"); (a_gI c, "galaxy_intrinsic_power")]%string.
Definition asks (s : string) (c : aconfig) : bool := existsb (fun p => is_str s (fst p)) (spectra_options c).
(** 222-223, 248-250. *)
Definition bin_suffix (nbins : Z) (nb : nat) : string := if Z.eqb nbins 1 then ""%string else ("_" ++ dec (nb + 1))%string.
(** 218-219, 244-245: zero outside the table unless observable_z is set. *)
Definition fill_of (oz : Z) : fill := if Z.eqb oz 0 then FillValue 0 else Extrapolate.
Section AupExecute.
  (** put_grid over a table that is there already: replaced ([over]) or refused, with nothing
      written. *)
  Variable over : bool.
  Variable c : aconfig.
  Definition put_grid (b : dblock) (s : string) (z k : list R) (p : list (list R)) : dblock * res unit :=
    if over then (put_axes_table b s "z" z "k_h" k "p_k" p, Ok tt)
    else match b s "p_k"%string with
         | Some _ => (b, Err "BlockNameAlreadyExists")
         | None => (put_axes_table b s "z" z "k_h" k "p_k" p, Ok tt)
         end.
  Definition store (b : dblock) (s : string) (z k : list R) (p : res (list (list R))) : dblock * res unit :=
    match p with Ok p => put_grid b s z k p | Err e => (b, Err e) end.
  (** 115-154 and 56-111. *)
  Definition extrapolate_power (b : dblock) (out in_ sec : string) (ze ke : list R) (f : fill) : dblock * res unit :=
    store b (sec ++ out) ze ke (extrapolated b (sec ++ in_) f ze ke).
  (** Without a fraction file z_fred_file is None, which interp1d refuses. *)
  Definition add_power (b : dblock) (out red blue sec : string) (ze ke : list R) (f : fill) : dblock * res unit :=
    match a_fred c with
    | Some (zf, ff) => store b (sec ++ out) ze ke (combined zf ff b sec red blue f ze ke)
    | None => (b, Err "ValueError")
    end.
  (** A sequence of statements, cut short by the first that raises. *)
  Fixpoint in_turn (l : list (dblock -> dblock * res unit)) (b : dblock) : dblock * res unit :=
    match l with [] => (b, Ok tt) | f :: l => then_ (f b) (in_turn l) end.
  (** 221-234. *)
  Definition extrapolate_loop (n : Z) (f : fill) (ze ke : list R) : list (dblock -> dblock * res unit) :=
    flat_map (fun nb => flat_map (fun p =>
      if is_str "extrapolate" (fst p)
      then [fun b => extrapolate_power b (bin_suffix n nb) (a_ext c ++ bin_suffix n nb) (snd p) ze ke f] else [])
      (spectra_options c)) (seq 0 (Z.to_nat n)).
  (** 247-281. *)
  Definition add_loop (n : Z) (f : fill) (ze ke : list R) : list (dblock -> dblock * res unit) :=
    flat_map (fun nb => flat_map (fun p =>
      if is_str "add_and_extrapolate" (fst p)
      then [fun b => add_power b (bin_suffix n nb) (a_red c ++ bin_suffix n nb) (a_blue c ++ bin_suffix n nb) (snd p) ze ke f] else [])
      (spectra_options c)) (seq 0 (Z.to_nat n)).
  (** 207-213: whatever goes wrong with matter_power_nl_mead is dropped. *)
  Definition matter_part (ze ke : list R) (b : dblock) : dblock * res unit :=
    if is_str "extrapolate" (a_mm c) then
      then_ (extrapolate_power b "" "" "matter_power_nl" ze ke Extrapolate)
        (fun b => (fst (extrapolate_power b "" "" "matter_power_nl_mead" ze ke Extrapolate), Ok tt))
    else (b, Ok tt).
  (** 215-234. *)
  Definition extrapolate_part (ze ke : list R) (b : dblock) : dblock * res unit :=
    if asks "extrapolate" c then
      match (n <- int_at b (a_hext c) "nbins" ;; oz <- int_at b (a_hext c) "observable_z" ;; Ok (n, oz)) with
      | Ok (n, oz) => in_turn (extrapolate_loop n (fill_of oz) ze ke) b
      | Err e => (b, Err e)
      end
    else (b, Ok tt).
  (** 236-281. *)
  Definition add_part (ze ke : list R) (b : dblock) : dblock * res unit :=
    if asks "add_and_extrapolate" c then
      match (n <- int_at b (a_hred c) "nbins" ;; m <- int_at b (a_hblue c) "nbins" ;;
             u <- (if Z.eqb n m then Ok tt else Err "Exception") ;;
             oz <- int_at b (a_hred c) "observable_z" ;; Ok (n, oz)) with
      | Ok (n, oz) => in_turn (add_loop n (fill_of oz) ze ke) b
      | Err e => (b, Err e)
      end
    else (b, Ok tt).
  (** 203-283. *)
  Definition aup_execute (b : dblock) : dblock * res unit :=
    match (z <- array b "matter_power_lin" "z" ;; k <- array b "matter_power_lin" "k_h" ;; Ok (z, k)) with
    | Err e => (b, Err e)
    | Ok (ze, ke) => then_ (matter_part ze ke b) (fun b => then_ (extrapolate_part ze ke b) (add_part ze ke))
    end.
End AupExecute.
