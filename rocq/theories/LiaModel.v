(** Model of cosmosis_modules/legacy/ia/ia_amplitudes.py.  Definitions only.
    mean_l_l0_to_beta (26-27), broken_powerlaw (29-32) and compute_luminosity_pdf (34-56) have the
    bodies of their namesakes in src/onepower/ia.py and are those of IaModel, with the redshifts
    of np.linspace.  Simplified: an infinite power (zero to a negative exponent) is not a number
    here; the tables of ones of 80-82 and 90-92, which execute never uses, have no columns to
    count; names of the block are compared with their case; the messages are left out. *)
From Coq Require Import ZArith.
From Verif Require Import Base Interp FftModel PipeModel OptModel ChainModel PredModel MiniModel IaModel AupModel.
Open Scope R_scope.

Record lconfig := { l_lumc : A2; l_pdfc : A2; l_lums : A2; l_pdfs : A2; l_nz : nat; l_central : string; l_satellite : string; l_suffix : string }.

(** 62, 66. *)
Definition known (v : oval) : res string :=
  match v with
  | OStr s => if existsb (String.eqb s) ["constant"; "luminosity"; "halo_mass"]%string then Ok s else Err "ValueError"
  | _ => Err "ValueError"
  end.
Definition as_number (v : oval) : res R := match v with OInt n => Ok (IZR n) | ODbl x => Ok x | _ => Err "TypeError" end.
Section LiaSetup.
  Variables missing wrong : string.
  (** The columns z and loglum of fits.open(_)[1].data. *)
  Variable fits_columns : oval -> res (list (R * R)).
  Variable o : options.
  (** 74-82, 84-92. *)
  Definition lia_table (dependence file : string) (zmin zmax : oval) (n : Z) : res (A2 * A2) :=
    if String.eqb dependence "luminosity" then
      f <- option_at missing o file ;; gal <- fits_columns f ;; a <- as_number zmin ;; e <- as_number zmax ;;
      u <- (if Z.ltb n 0 then Err "ValueError" else Ok tt) ;;
      compute_luminosity_pdf (Z.to_nat n) (linspace a e (Z.to_nat n)) nlbins gal
    else if Z.ltb n 0 then Err "ValueError" else Ok (fun _ _ => 1, fun _ _ => 1).
  (** 58-97. *)
  Definition lia_setup : res lconfig :=
    vc <- option_at missing o "central_IA_depends_on" ;; vs <- option_at missing o "satellite_IA_depends_on" ;;
    c <- known vc ;; s <- known vs ;;
    zmin <- option_at missing o "zmin" ;; zmax <- option_at missing o "zmax" ;; nz <- option_at missing o "nz" ;;
    n <- (match nz with OInt n => Ok n | _ => Err "TypeError" end) ;;
    tc <- lia_table c "z_loglum_file_centrals" zmin zmax n ;;
    ts <- lia_table s "z_loglum_file_satellites" zmin zmax n ;;
    name <- get_string missing wrong o "output_suffix" (Some ""%string) ;;
    Ok {| l_lumc := fst tc; l_pdfc := snd tc; l_lums := fst ts; l_pdfs := snd ts; l_nz := Z.to_nat n;
          l_central := c; l_satellite := s; l_suffix := suffix_of (lower name) |}.
End LiaSetup.

(** ** execute, 99-184 *)
Definition ia_parameters (c : lconfig) : string := ("intrinsic_alignment_parameters" ++ l_suffix c)%string.
Definition large_scale (c : lconfig) : string := ("ia_large_scale_alignment" ++ l_suffix c)%string.
Definition small_scale (c : lconfig) : string := ("ia_small_scale_alignment" ++ l_suffix c)%string.
(** block.has_value. *)
Definition has_value (b : dblock) (s n : string) : bool := match b s n with Some _ => true | None => false end.
(** An array over the redshifts. *)
Definition rows (n : nat) (f : nat -> R) : bval := BArr (map f (seq 0 n)).
(** What a part writes, in order; everything is read before. *)
Fixpoint put_all (s : string) (l : list (string * bval)) (b : dblock) : dblock * res unit :=
  match l with [] => (b, Ok tt) | (n, v) :: l => then_ (put_new b s n v) (put_all s l) end.
(** 106-153. *)
Definition central_values (c : lconfig) (b : dblock) : res (list (string * bval)) :=
  let p := ia_parameters c in
  gamma <- block_num b p "gamma_2h_amplitude" ;;
  l <- (if String.eqb (l_central c) "constant" then Ok [("alignment_gi"%string, rows (l_nz c) (fun _ => gamma * 1))]
        else if String.eqb (l_central c) "luminosity" then
          if has_value b p "L_pivot" then
            lpiv <- block_num b p "L_pivot" ;; beta <- block_num b p "beta" ;;
            if has_value b p "beta_two" then
              beta_two <- block_num b p "beta_two" ;;
              Ok [("alignment_gi"%string, rows (l_nz c) (fun i => broken_powerlaw nlbins (l_lumc c i) (l_pdfc c i) gamma (pow10 lpiv) beta beta_two))]
            else
              Ok [("alignment_gi"%string, rows (l_nz c) (fun i => gamma * mean_l_l0_to_beta nlbins (l_lumc c i) (l_pdfc c i) (pow10 lpiv) beta))]
          else Err "ValueError"
        else if String.eqb (l_central c) "halo_mass" then
          if has_value b p "M_pivot" then
            mpiv <- block_num b p "M_pivot" ;; beta <- block_num b p "beta" ;;
            if has_value b p "beta_two" then Err "ValueError"
            else Ok [("alignment_gi"%string, rows (l_nz c) (fun _ => gamma * 1)); ("M_pivot"%string, BDbl (pow10 mpiv)); ("beta"%string, BDbl beta)]
          else Err "ValueError"
        else Ok []) ;;
  Ok (l ++ [("instance"%string, BStr (l_central c))])%list.
(** 155-182. *)
Definition satellite_values (c : lconfig) (b : dblock) : res (list (string * bval)) :=
  let p := ia_parameters c in
  gamma <- block_num b p "gamma_1h_amplitude" ;;
  l <- (if String.eqb (l_satellite c) "constant" then Ok [("alignment_1h"%string, rows (l_nz c) (fun _ => gamma * 1))]
        else if String.eqb (l_satellite c) "luminosity" then
          lpiv <- block_num b p "L_pivot" ;; beta_sat <- block_num b p "beta_sat" ;;
          Ok [("alignment_1h"%string, rows (l_nz c) (fun i => gamma * mean_l_l0_to_beta nlbins (l_lums c i) (l_pdfs c i) (pow10 lpiv) beta_sat))]
        else if String.eqb (l_satellite c) "halo_mass" then
          mpiv <- block_num b p "M_pivot" ;; beta_sat <- block_num b p "beta_sat" ;;
          Ok [("alignment_1h"%string, rows (l_nz c) (fun _ => gamma * 1)); ("M_pivot"%string, BDbl (pow10 mpiv)); ("beta_sat"%string, BDbl beta_sat)]
        else Ok []) ;;
  Ok (l ++ [("instance"%string, BStr (l_satellite c))])%list.
Definition write_part (s : string) (v : dblock -> res (list (string * bval))) (b : dblock) : dblock * res unit :=
  match v b with Ok l => put_all s l b | Err e => (b, Err e) end.
Definition lia_execute (c : lconfig) (b : dblock) : dblock * res unit :=
  then_ (write_part (large_scale c) (central_values c) b) (write_part (small_scale c) (satellite_values c)).
