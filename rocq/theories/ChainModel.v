(** Model of the data-block side of the real-space modules: setup and execute of
    cosmosis_modules/pk_to_real/pk_to_real.py, pk_to_real_ogata.py and correct_cosmo_real.py,
    and what execute of onepower_interface.py leaves in the block for them.  Definitions only.
    The numerical parts are those of RsModel and OgataModel, the options those of OptModel. *)
From Coq Require Import ZArith.
From Verif Require Import Base Quad Interp FftModel RsModel OgataModel PipeModel OptModel.
Open Scope R_scope.

(** ** The data block *)
Inductive bval := BInt (n : Z) | BDbl (x : R) | BStr (s : string) | BArr (l : list R) | BTab (l : list (list R)).
Definition dblock := string -> string -> option bval.
(** block[s, n] = v, and replace_double_array_1d. *)
Definition bput (b : dblock) (s n : string) (v : bval) : dblock :=
  fun s' n' => if (String.eqb s s' && String.eqb n n')%bool then Some v else b s' n'.
Definition at_ (l : list R) : A1 := fun i => nth i l 0.
(** pk_to_real.py 235-242, pk_to_real_ogata.py 161-166  the section of a power spectrum.  A
    section whose shapes do not fit is treated like a missing one; both raise. *)
Definition read_pk (b : dblock) (s : string) : option pk_section :=
  match b s "k_h"%string, b s "z"%string, b s "p_k"%string with
  | Some (BArr k), Some (BArr z), Some (BTab p) =>
      if (Nat.leb (List.length z) (List.length p) &&
          forallb (fun row => Nat.eqb (List.length row) (List.length k)) (firstn (List.length z) p))%bool
      then Some {| s_nz := List.length z; s_z := at_ z; s_nk := List.length k; s_k := at_ k; s_pk := fun j i => nth i (nth j p []) 0 |}
      else None
  | _, _, _ => None
  end.
(** "bin_{}".format(i). *)
Definition bin_key (i : nat) : string := ("bin_" ++ dec i)%string.
(** 264-271 / 190-197  what load_kernel reads. *)
Definition read_nz (b : dblock) (s : string) : option nz_section :=
  match b s "z"%string with
  | Some (BArr z) =>
      Some {| n_size := List.length z; n_z := at_ z;
              n_bin := fun i => match b s (bin_key i) with
                                | Some (BArr f) => if Nat.eqb (List.length f) (List.length z) then Some (at_ f) else None
                                | _ => None
                                end |}
  | _ => None
  end.
(** 214-215  block["density", "mean_density0"]: an array, or a number np.unique makes one of. *)
Definition read_rho (b : dblock) : res (nat * A1) :=
  match b "density"%string "mean_density0"%string with
  | Some (BArr l) => Ok (List.length l, at_ l)
  | Some (BDbl x) => Ok (1%nat, fun _ => x)
  | Some (BInt n) => Ok (1%nat, fun _ => IZR n)
  | Some _ => Err "TypeError"
  | None => Err "BlockNameNotFound"
  end.

(** ** Setup of the two projection modules *)
(** The attributes of CosmosisTransformer and of projection. *)
Record proj := { q_type : string; q_input : string; q_output : string; q_suffixes : option (list string); q_sample : string }.
(** 21-24  DEFAULT_SECTIONS. *)
Definition default_sections (ty : string) : string * string :=
  if String.eqb ty "ds" then ("matter_galaxy_power", "ds")%string else ("galaxy_power", "wp")%string.
Section Setup.
  Variables missing wrong : string.
  Variable o : options.
  (** options["suffixes"], flattened, each written by an f-string; None when absent. *)
  Variable suffixes : option (list string).
  (** pk_to_real.py 165-192 / pk_to_real_ogata.py 97-123. *)
  Definition read_proj (ty : string) : res proj :=
    let d := default_sections ty in
    input <- get_string missing wrong o "input_section_name" (Some (fst d)) ;;
    output <- get_string missing wrong o "output_section_name" (Some (snd d)) ;;
    sample <- get_string missing wrong o "sample" None ;;
    let input := if String.eqb input "" then fst d else input in
    let output := if String.eqb output "" then snd d else output in
    Ok {| q_type := ty; q_input := input; q_output := output; q_suffixes := suffixes; q_sample := sample |}.
  (** 194-208, 274-286 / 125-137, 200-212; np.logspace refuses a negative count. *)
  Definition setup_with {A} (make : string -> nat -> R -> R -> R -> R -> res A) (default_n : Z) : res (proj * A) :=
    ty <- get_string missing wrong o "corr_type" None ;;
    if negb (existsb (String.eqb ty) ["wp"; "ds"]%string) then Err "ValueError" else
    p <- read_proj ty ;;
    n <- get_int missing wrong o "n_transform" (Some default_n) ;;
    k_min <- get_double missing wrong o "k_min_extrapolate" (Some (1 / 10000)) ;;
    k_max <- get_double missing wrong o "k_max_extrapolate" (Some 5000000) ;;
    rp_min <- get_double missing wrong o "rp_min" (Some (1 / 10)) ;;
    rp_max <- get_double missing wrong o "rp_max" (Some 1000) ;;
    if Z.ltb n 0 then Err "ValueError" else
    t <- make ty (Z.to_nat n) k_min k_max rp_min rp_max ;;
    Ok (p, t).
  (** pk_to_real.py 274-286; DEFAULT_N_TRANSFORM. *)
  Definition fft_setup (lgr lgi : R -> R -> R) : res (proj * transformer) := setup_with (make_transformer lgr lgi) 8192.
  (** pk_to_real_ogata.py 200-212; its DEFAULT_N_TRANSFORM. *)
  Definition quad_setup : res (proj * ogata) := setup_with make_ogata 250.
End Setup.

(** ** Execution of the two projection modules *)
(** 219-222 / 145-148  nbins. *)
Definition read_count (p : proj) (b : dblock) : res Z :=
  match q_suffixes p with
  | Some l => Ok (Z.of_nat (List.length l))
  | None => match b (q_sample p) "nbin"%string with Some (BInt n) => Ok n | Some _ => Err "TypeError" | None => Err "BlockNameNotFound" end
  end.
Definition job_of (p : proj) (b : dblock) : job :=
  {| j_type := q_type p; j_suffixes := q_suffixes p; j_input := q_input p;
     j_nbin := match b (q_sample p) "nbin"%string with Some (BInt n) => Some (Z.to_nat n) | _ => None end |}.
(** 224-256 / 150-179  the loop over bins: every bin is read from the block as it is then, and
    written at once. *)
Fixpoint bins_loop (bin : dblock -> nat -> res (list R * list R)) (out : string) (is : list nat) (b : dblock) (rp : option (list R))
  : dblock * res (option (list R)) :=
  match is with
  | [] => (b, Ok rp)
  | i :: is =>
      match bin b i with
      | Err e => (b, Err e)
      | Ok r => bins_loop bin out is (bput b out (bin_key (i + 1)) (BArr (snd r))) (Some (fst r))
      end
  end.
(** 258-262 / 184-188; without bins the name rp is not bound when it is reached. *)
Definition project_block (bin : dblock -> nat -> res (list R * list R)) (p : proj) (save_name : string) (b : dblock) : dblock * res unit :=
  let out := q_output p in
  match read_count p b with
  | Err e => (b, Err e)
  | Ok nb =>
      match bins_loop bin out (seq 0 (Z.to_nat nb)) b None with
      | (b, Err e) => (b, Err e)
      | (b, Ok rp) =>
          let b := bput b out "nbin" (BInt nb) in
          let b := bput b out "sample" (BStr (q_sample p)) in
          match rp with
          | None => (b, Err "UnboundLocalError")
          | Some rp =>
              let b := bput b out "rp" (BArr rp) in
              let b := bput b out "sep_name" (BStr "rp") in
              (bput b out "save_name" (BStr save_name), Ok tt)
          end
      end
  end.
Definition need_nz (b : dblock) (s : string) : res nz_section :=
  match read_nz b s with Some ns => Ok ns | None => Err "BlockNameNotFound" end.
(** One bin of pk_to_real.py. *)
Definition fft_bin (T : transformer) (p : proj) (rho : nat * A1) (b : dblock) (i : nat) : res (list R * list R) :=
  d <- mean_density (q_type p) rho ;;
  ns <- need_nz b (q_sample p) ;;
  one_bin T (job_of p b) d (read_pk b) ns i.
(** pk_to_real.py 210-262 and 289-292. *)
Definition fft_execute (T : transformer) (p : proj) (b : dblock) : dblock * res unit :=
  match (if String.eqb (q_type p) "ds" then read_rho b else Ok (1%nat, fun _ => 1)) with
  | Err e => (b, Err e)
  | Ok rho => project_block (fft_bin T p rho) p (q_type p) b
  end.
(** One bin of pk_to_real_ogata.py, and 140-188, 215-218. *)
Section Quadrature.
  Variable ht : R -> (R -> R) -> R -> R.
  Definition quad_bin (O : ogata) (p : proj) (b : dblock) (i : nat) : res (list R * list R) :=
    ns <- need_nz b (q_sample p) ;;
    ogata_bin ht O (job_of p b) (read_pk b) ns i.
  Definition quad_execute (O : ogata) (p : proj) (b : dblock) : dblock * res unit := project_block (quad_bin O p) p "" b.
End Quadrature.

(** ** correct_cosmo_real.py *)
(** 20-22  z: a scalar becomes a list. *)
Definition correct_z (v : oval) : res (list R) :=
  match v with OArr l => Ok l | OInt n => Ok [IZR n] | ODbl x => Ok [x] | OBool b => Ok [if b then 1 else 0] | OStr _ => Err "TypeError" end.
Definition number (b : dblock) (n : string) : res R :=
  match b "cosmological_parameters"%string n with
  | Some (BDbl x) => Ok x
  | Some (BInt k) => Ok (IZR k)
  | Some _ => Err "TypeError"
  | None => Err "BlockNameNotFound"
  end.
(** 59-69  the arguments of Flatw0waCDM, TCMB first. *)
Definition run_arguments (b : dblock) : res (list R) :=
  tcmb <- (match b "cosmological_parameters"%string "tcmb"%string with
           | None => Ok (27255 / 10000)
           | Some _ => number b "tcmb"
           end) ;;
  h0 <- number b "hubble" ;; ob <- number b "omega_b" ;; om <- number b "omega_m" ;; mnu <- number b "mnu" ;;
  w <- number b "w" ;; wa <- number b "wa" ;;
  Ok [tcmb; h0; ob; om; mnu; w; wa].
Definition array (b : dblock) (s n : string) : res (list R) :=
  match b s n with Some (BArr l) => Ok l | Some _ => Err "TypeError" | None => Err "BlockNameNotFound" end.
(** 73-104  the loop over bins. *)
Fixpoint correct_bins (run data : cosmo) (sec ty : string) (z : list R) (i : nat) (b : dblock) : dblock * res unit :=
  match z with
  | [] => (b, Ok tt)
  | zi :: t =>
      match (func <- array b sec (bin_key (i + 1)) ;; arr <- array b sec "rp" ;; rc <- ratio_corr run data ty zi ;; Ok (func, arr, rc)) with
      | Err e => (b, Err e)
      | Ok (func, arr, rc) =>
          let ratio := ratio_rp run data zi in
          let b := bput b sec (bin_key (i + 1)) (BArr (map (fun x => x * rc) func)) in
          let b := bput b sec "rp" (BArr (map (fun x => x * ratio) arr)) in
          correct_bins run data sec ty t (S i) b
      end
  end.
(** 48-106  execute; [mk] is Flatw0waCDM. *)
Definition correct_execute (mk : list R -> cosmo) (data : cosmo) (sec : string) (z : list R) (b : dblock) : dblock * res unit :=
  match (nb <- (match b sec "nbin"%string with Some (BInt n) => Ok n | Some _ => Err "TypeError" | None => Err "BlockNameNotFound" end) ;;
         ty <- (match b sec "save_name"%string with Some (BStr s) => Ok s | Some _ => Err "TypeError" | None => Err "BlockNameNotFound" end) ;;
         if negb (Z.eqb (Z.of_nat (List.length z)) nb) then Err "ValueError" else
         args <- run_arguments b ;; Ok (ty, args)) with
  | Err e => (b, Err e)
  | Ok (ty, args) => correct_bins (mk args) data sec ty z 0 b
  end.

(** ** What onepower_interface.py leaves in the block *)
(** block.put_grid(s, 'z', z, 'k_h', k, key, t); the axes of one section are the same each time. *)
Definition put_grid (b : dblock) (s : string) (g : (nat * A1) * (nat * A1)) (key : string) (t : nat -> nat -> R) : dblock :=
  let b := bput b s "z" (BArr (map (snd (fst g)) (seq 0 (fst (fst g))))) in
  let b := bput b s "k_h" (BArr (map (snd (snd g)) (seq 0 (fst (snd g))))) in
  bput b s key (BTab (map (fun i => map (t i) (seq 0 (fst (snd g)))) (seq 0 (fst (fst g))))).
(** An entry of the log: a spectrum is a grid; the others, which the log only names, may leave
    anything in their own section. *)
Definition save (g : (nat * A1) * (nat * A1)) (other : dblock -> write -> string -> option bval) (b : dblock) (w : write) : dblock :=
  match w_val w with
  | Some t => put_grid b (w_sec w) g (w_key w) t
  | None => fun s n => if String.eqb (w_sec w) s then other b w n else b s n
  end.
Definition saved (g : (nat * A1) * (nat * A1)) (other : dblock -> write -> string -> option bval) (lg : list write) (b : dblock) : dblock :=
  fold_left (save g other) lg b.
