(** Model of cosmosis_modules/legacy/predict_observable/predict_observable.py and of the part of
    onepower_interface.py (505-571, save_obs_results) whose output it reads.  Definitions only.
    Simplified: nodes of a table increase; an observable function whose shape does not fit its
    axes is refused where it is read; numbers are reals, and [zero_div x] is whatever x / 0 is. *)
From Coq Require Import ZArith.
From Verif Require Import Base Quad Interp FftModel RsModel PipeModel OptModel ChainModel.
Open Scope R_scope.

(** block.put_*: refuses a name that is already there. *)
Definition put_new (b : dblock) (s n : string) (v : bval) : dblock * res unit :=
  match b s n with Some _ => (b, Err "BlockNameAlreadyExists") | None => (bput b s n v, Ok tt) end.
Definition then_ (r : dblock * res unit) (k : dblock -> dblock * res unit) : dblock * res unit :=
  match snd r with Ok _ => k (fst r) | Err e => (fst r, Err e) end.

(** ** What onepower_interface.py writes *)
(** The observable function of a bin: its redshifts, observable values and table (redshift by
    observable). *)
Record obs_table := { t_z : list R; t_obs : list R; t_tot : list (list R); t_cen : list (list R); t_sat : list (list R) }.
Definition obs_key (n : string) (suffix : string) : string := (n ++ "_" ++ suffix)%string.
(** put_grid leaves the two axes and the table; the axes may be there already. *)
Definition put_axes_table (b : dblock) (s nz : string) (z : list R) (no : string) (o : list R) (key : string) (t : list (list R)) : dblock :=
  bput (bput (bput b s nz (BArr z)) s no (BArr o)) s key (BTab t).
(** 516-571  one bin; [flat]: every setting has size one and nz = 1, so that np.squeeze leaves
    one row. *)
Definition save_obs_bin (flat : bool) (s : string) (b : dblock) (i : nat) (t : obs_table) : dblock :=
  let k n := obs_key n (dec (i + 1)) in
  if flat then
    bput (bput (bput (bput b s (k "obs_val") (BArr (t_obs t))) s (k "obs_func") (BArr (nth 0 (t_tot t) [])))
               s (k "obs_func_c") (BArr (nth 0 (t_cen t) []))) s (k "obs_func_s") (BArr (nth 0 (t_sat t) []))
  else
    let g key t' b := put_axes_table b s (k "z_bin") (t_z t) (k "obs_val") (t_obs t) (k key) t' in
    g "obs_func_s"%string (t_sat t) (g "obs_func_c"%string (t_cen t) (g "obs_func"%string (t_tot t) b)).
Fixpoint save_obs_bins (flat : bool) (s : string) (i : nat) (l : list obs_table) (b : dblock) : dblock :=
  match l with [] => b | t :: l => save_obs_bins flat s (S i) l (save_obs_bin flat s b i t) end.
(** 505-571; on a block where the section is empty. *)
Definition save_obs_block (flat : bool) (s : string) (l : list obs_table) (b : dblock) : dblock :=
  save_obs_bins flat s 0 l (bput b s "obs_func_definition" (BStr "obs_func * obs * ln(10)")).

(** ** setup, 63-139 *)
Record pconfig := { p_in : string; p_out : string; p_suffixes : list string; p_sample : option string;
  p_weighted : bool; p_dist : option (list (R * R)); p_min : list R; p_max : list R; p_zmin : list R; p_zmax : list R;
  p_n : list Z; p_edges : bool; p_obs : list (list R); p_cosmo : option cosmo }.
(** 96-104  the observable values of a bin; numpy refuses a negative number of points. *)
Definition obs_values (edges : bool) (lo hi : R) (n : Z) : res (list R) :=
  if edges then
    if Z.ltb (n + 1) 0 then Err "ValueError"
    else let bins := linspace lo hi (Z.to_nat (n + 1)) in
         Ok (map (fun j => pow10 ((bins (j + 1)%nat + bins j) / 2)) (seq 0 (Z.to_nat n)))
  else if Z.ltb n 0 then Err "ValueError" else Ok (map (logspace lo hi (Z.to_nat n)) (seq 0 (Z.to_nat n))).
Fixpoint obs_arrays (edges : bool) (lo hi : list R) (n : list Z) : res (list (list R)) :=
  match lo, hi, n with
  | a :: lo, z :: hi, k :: n => (v <- obs_values edges a z k ;; t <- obs_arrays edges lo hi n ;; Ok (v :: t))
  | _, _, _ => Ok []
  end.
Section PredSetup.
  Variables missing wrong : string.
  Variable o : options.
  (** options['suffixes'], flattened, each written by an f-string; None when absent.
      options['n_obs'], an integer or an array of integers. *)
  Variable suffixes : option (list string).
  Variable n_obs : res (list Z).
  (** np.loadtxt(name): the first two columns, row by row. *)
  Variable loadtxt : string -> res (list (R * R)).
  (** the astropy class and its arguments, 123-134. *)
  Variable data_cosmo : res cosmo.
  Definition pred_setup : res pconfig :=
    inp <- get_string missing wrong o "input_section_name" (Some "stellar_mass_function"%string) ;;
    out <- get_string missing wrong o "output_section_name" (Some "obs_out"%string) ;;
    correct <- get_bool missing wrong o "correct_cosmo" (Some false) ;;
    ss <- (match suffixes with
           | Some l => s <- get_string missing wrong o "sample" None ;; Ok (l, Some s)
           | None => Ok (["_1"%string], None)
           end) ;;
    file <- get_string missing wrong o "obs_dist_file" (Some ""%string) ;;
    weighted <- get_bool missing wrong o "weighted_binning" (Some false) ;;
    lo <- get_array missing o "log10_obs_min" ;;
    hi <- get_array missing o "log10_obs_max" ;;
    zmin <- get_array missing o "zmin" ;;
    zmax <- get_array missing o "zmax" ;;
    n <- n_obs ;;
    edges <- get_bool missing wrong o "edges" (Some false) ;;
    let k := List.length (fst ss) in
    if negb (Nat.eqb (List.length lo) k && Nat.eqb (List.length hi) k && Nat.eqb (List.length n) k) then Err "ValueError" else
    arrays <- obs_arrays edges lo hi n ;;
    dist <- (if weighted then
               if edges then
                 if String.eqb file "" then (match lo with [] => Err "ValueError" | _ => Ok None end)
                 else d <- loadtxt file ;; Ok (Some d)
               else Err "ValueError"
             else Ok None) ;;
    cos <- (if correct then c <- data_cosmo ;; Ok (Some c) else Ok None) ;;
    Ok {| p_in := inp; p_out := out; p_suffixes := fst ss; p_sample := snd ss; p_weighted := weighted; p_dist := dist;
          p_min := lo; p_max := hi; p_zmin := zmin; p_zmax := zmax; p_n := n; p_edges := edges; p_obs := arrays;
          p_cosmo := cos |}.
End PredSetup.

(** ** execute, 141-225 *)
(** The interpolator of 20-47: one row, or one row per redshift. *)
Inductive obs_interp := Flat (f : R -> R) | ByZ (z : list R) (f : list (R -> R)).
Definition row_interp (x y : list R) : R -> R := interp1d (FillValue 0) (List.length x) (at_ x) (at_ y).
(** 20-47. *)
Definition load_obs (b : dblock) (sec suffix : string) : res obs_interp :=
  x <- array b sec (obs_key "obs_val" suffix) ;;
  match b sec (obs_key "z_bin" suffix) with
  | None =>
      y <- array b sec (obs_key "obs_func" suffix) ;;
      if Nat.eqb (List.length y) (List.length x) then Ok (Flat (row_interp x y)) else Err "ValueError"
  | Some zv =>
      match b sec (obs_key "obs_func" suffix), zv with
      | Some (BTab t), BArr z =>
          if forallb (fun r => Nat.eqb (List.length r) (List.length x)) t then Ok (ByZ z (map (row_interp x) t)) else Err "ValueError"
      | Some _, _ => Err "ValueError"
      | None, _ => Err "BlockNameNotFound"
      end
  end.
(** 49-61. *)
Definition load_redshift (b : dblock) (sec : string) (bin : nat) (z : list R) : res (list R) :=
  zi <- array b sec "z" ;;
  ni <- array b sec (bin_key bin) ;;
  if Nat.eqb (List.length ni) (List.length zi) then Ok (map (row_interp zi ni) z) else Err "ValueError".
(** The row used by weighted binning, 181 and 191: the only one, or the first. *)
Definition first_row (f : obs_interp) : res (R -> R) :=
  match f with Flat g => Ok g | ByZ _ (g :: _) => Ok g | ByZ _ [] => Err "IndexError" end.
Definition sum_list (l : list R) : R := fold_right Rplus 0 l.
Section Weighted.
  (** x / 0. *)
  Variable zero_div : R -> R.
  Definition quotient (a b : R) : R := if Req_EM_T b 0 then zero_div a else a / b.
  (** cond_bin: above the lower edge, up to the upper one. *)
  Definition in_bin (lo hi v : R) : bool := (if Rlt_dec lo v then true else false) && (if Rle_dec v hi then true else false).
  (** 184-187  with the weights of the file. *)
  Definition dist_mean (f : R -> R) (d : list (R * R)) (lo hi : R) : R :=
    let s := filter (fun p => in_bin lo hi (fst p)) d in
    quotient (sum_list (map (fun p => f (pow10 (fst p)) * snd p) s)) (sum_list (map snd s)).
  (** 112  obs_arr_fine. *)
  Definition fine_points : nat := Z.to_nat 10000.
  Definition lowest (l : list R) : R := fold_right fmin (hd 0 l) l.
  Definition highest (l : list R) : R := fold_right fmax (hd 0 l) l.
  Definition fine_grid (lo hi : list R) : list R := map (linspace (lowest lo) (highest hi) fine_points) (seq 0 fine_points).
  (** 194-197  without weights. *)
  Definition plain_mean (f : R -> R) (v : list R) (lo hi : R) : R :=
    let s := filter (in_bin lo hi) v in
    quotient (sum_list (map (fun x => f (pow10 x)) s)) (INR (List.length s)).
  (** 179-198.  A file of fewer than two rows is read as one array, whose columns the try clause
      misses; the except clause then misses obs_arr_fine. *)
  Definition binned (c : pconfig) (i : nat) (f : R -> R) : res (list R) :=
    let n := Z.to_nat (nth i (p_n c) 0%Z) in
    let e := linspace (nth i (p_min c) 0) (nth i (p_max c) 0) (n + 1) in
    match p_dist c with
    | Some ((_ :: _ :: _) as d) => Ok (map (fun j => dist_mean f d (e j) (e (j + 1)%nat)) (seq 0 n))
    | Some _ => Err "KeyError"
    | None => Ok (map (fun j => plain_mean f (fine_grid (p_min c) (p_max c)) (e j) (e (j + 1)%nat)) (seq 0 n))
    end.
  (** 202-204  simpson(nz[:, np.newaxis] * obs_func, z_obs, axis=0) for one observable value. *)
  Definition over_z (z nz : list R) (f : nat -> R) : R := simpson (List.length z) (fun j => nth j nz 0 * f j) (at_ z).
  Definition need_sample (c : pconfig) : res string := match p_sample c with Some s => Ok s | None => Err "ArgumentError" end.
  (** 176-204  the prediction of a bin before the correction. *)
  Definition raw_bin (c : pconfig) (b : dblock) (i : nat) : res (list R) :=
    it <- load_obs b (p_in c) (nth i (p_suffixes c) ""%string) ;;
    if p_weighted c then
      f <- first_row it ;;
      v <- binned c i f ;;
      match it with
      | Flat _ => Ok v
      | ByZ z _ =>
          s <- need_sample c ;; nz <- load_redshift b s (i + 1) z ;;
          Ok (map (fun y => over_z z nz (fun _ => y)) v)
      end
    else
      let q := nth i (p_obs c) [] in
      match it with
      | Flat f => Ok (map f q)
      | ByZ z rows =>
          s <- need_sample c ;; nz <- load_redshift b s (i + 1) z ;;
          if Nat.eqb (List.length rows) (List.length z) then Ok (map (fun x => over_z z nz (fun j => nth j rows (fun _ => 0) x)) q)
          else Err "ValueError"
      end.
  (** 208-213  the comoving volume between two redshifts, times h^3. *)
  Definition shell (m : cosmo) (z1 z2 : R) : R := (c_dist m z2 ^ 3 - c_dist m z1 ^ 3) * c_h m ^ 3.
  Definition pred_bin (run : option cosmo) (c : pconfig) (b : dblock) (i : nat) : res (list R) :=
    v <- raw_bin c b i ;;
    match p_cosmo c, run with
    | Some data, Some run =>
        let z1 := nth i (p_zmin c) 0 in let z2 := nth i (p_zmax c) 0 in
        Ok (map (fun x => x * quotient (shell run z1 z2) (shell data z1 z2)) v)
    | _, _ => Ok v
    end.
  (** 174-220. *)
  Fixpoint pred_loop (run : option cosmo) (c : pconfig) (is : list nat) (b : dblock) : dblock * res unit :=
    match is with
    | [] => (b, Ok tt)
    | i :: is =>
        match pred_bin run c b i with
        | Err e => (b, Err e)
        | Ok v =>
            let q := nth i (p_obs c) [] in
            then_ (put_new b (p_out c) (bin_key (i + 1)) (BArr v)) (fun b =>
            then_ (put_new b (p_out c) (obs_key "obs" (dec (i + 1))) (BArr q)) (fun b =>
            then_ (put_new b (p_out c) (obs_key "mass" (dec (i + 1))) (BArr q)) (pred_loop run c is)))
        end
    end.
  (** 148-168; [mk] is Flatw0waCDM, whose arguments are those of correct_cosmo_real.py. *)
  Definition run_cosmo (mk : list R -> cosmo) (c : pconfig) (b : dblock) : res (option cosmo) :=
    match p_cosmo c with
    | None => Ok None
    | Some _ =>
        let n := List.length (p_suffixes c) in
        if negb (Nat.eqb (List.length (p_zmin c)) n && Nat.eqb (List.length (p_zmax c)) n) then Err "ValueError"
        else args <- run_arguments b ;; Ok (Some (mk args))
    end.
  (** 141-225. *)
  Definition pred_execute (mk : list R -> cosmo) (c : pconfig) (b : dblock) : dblock * res unit :=
    let n := List.length (p_suffixes c) in
    match run_cosmo mk c b with
    | Err e => (b, Err e)
    | Ok run =>
        then_ (pred_loop run c (seq 0 n) b) (fun b =>
          let b := bput b (p_out c) "nbin" (BInt (Z.of_nat n)) in
          (bput b (p_out c) "sample" (BStr (match p_sample c with Some s => s | None => "None" end)), Ok tt))
    end.
End Weighted.
