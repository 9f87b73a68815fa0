(** Model of cosmosis_modules/legacy/likelihood_ds_wp/mini_2pt_like.py and of
    cosmosis_modules/legacy/utils/correlated_priors.py.  Definitions only.
    Simplified: theory separations increase and all separations are positive; every data file
    has two rows or more, so that np.loadtxt gives an array; the plotting imports, the blocks
    of the covariance and of the correlation matrix and likenorm, which setup drops, are left
    out. *)
From Coq Require Import ZArith Ascii.
From Verif Require Import Base Interp FftModel PipeModel OptModel TpModel ChainModel.
Open Scope R_scope.

(** ** Reading the data, 10-131 *)
(** sorted(): strings are compared character by character. *)
Fixpoint insert (s : string) (l : list string) : list string :=
  match l with [] => [s] | t :: r => if String.leb s t then s :: l else t :: insert s r end.
Definition sorted_names (l : list string) : list string := fold_right insert [] l.
(** 96-116 without exclude; [column f c] is np.loadtxt(f, usecols=c).  A third column asks for
    the name enumerat. *)
Definition load_points (glob : string -> list string) (column : string -> Z -> res (list R)) (files : string) (cols : list Z)
  : res (list (list R) * list (list R)) :=
  let names := sorted_names (glob files) in
  xy <- mapr (fun f => c0 <- item 0 cols ;; x <- column f c0 ;; c1 <- item 1 cols ;; y <- column f c1 ;; Ok (x, y)) names ;;
  if Nat.eqb (List.length cols) 3 then Err "NameError" else Ok (map fst xy, map snd xy).
(** 41-49  the inverse; [inv] is None where np.linalg.inv raises, and the module then misses the
    name warnings. *)
Definition invert (inv : mat -> option mat) (m : mat) : res mat :=
  match inv m with Some i => Ok i | None => Err "NameError" end.
(** 60-62  nrbins[:i].sum(). *)
Definition starts (nr : list nat) (i : nat) : nat := sum_nat (firstn i nr).

(** ** setup, 156-190 *)
Record mconfig := { m_sections : list string; m_inv : mat; m_x : list (list R); m_y : list (list R);
  m_mode : string; m_edge : list (list R); m_like : string; m_keep : bool; m_unit : string }.
(** 176-184  the edges of one bin from its points. *)
Definition edges_of (x : list R) : list R :=
  let n := List.length x in
  let l i := log10 (nth i x 0) in
  let mid i := (l (i + 1)%nat + l i) * (1 / 2) in
  map pow10 ((2 * l 0%nat - mid 0%nat) :: map mid (seq 0 (n - 1)) ++ [2 * l (n - 1)%nat - mid (n - 2)%nat]).
Section MiniSetup.
  Variables missing wrong : string.
  Variable o : options.
  Variable glob : string -> list string.
  Variable column : string -> Z -> res (list R).
  (** options['columns'], one integer or an array of integers. *)
  Variable cols : res (list Z).
  (** np.loadtxt of the covariance. *)
  Variable loadtxt : string -> res mat.
  Variable inv : mat -> option mat.
  Definition mini_setup : res mconfig :=
    secs <- get_string missing wrong o "input_section_names" None ;;
    data <- get_string missing wrong o "data" None ;;
    cov <- get_string missing wrong o "covariance" None ;;
    cs <- cols ;;
    unit <- get_string missing wrong o "unit" None ;;
    xy <- load_points glob column data cs ;;
    c <- loadtxt cov ;;
    i <- invert inv c ;;
    mode <- get_string missing wrong o "binning_mode" (Some "interpolate"%string) ;;
    like <- get_string missing wrong o "like_name" None ;;
    keep <- get_bool missing wrong o "keep_theory_vector" (Some false) ;;
    Ok {| m_sections := words secs; m_inv := i; m_x := fst xy; m_y := snd xy; m_mode := mode;
          m_edge := if String.eqb mode "integrate" then map edges_of (fst xy) else fst xy;
          m_like := like; m_keep := keep; m_unit := unit |}.
End MiniSetup.

(** ** execute, 193-247 *)
(** np.trapz(y, x). *)
Definition trapz (p : list (R * R)) : R :=
  sumR (List.length p - 1) (fun i =>
    (fst (nth (i + 1) p (0, 0)) - fst (nth i p (0, 0))) * (snd (nth (i + 1) p (0, 0)) + snd (nth i p (0, 0))) / 2).
(** 134-151  get_theory_point with weighting=None. *)
Definition inside (lo hi v : R) : bool := (if Rle_dec lo v then true else false) && (if Rlt_dec v hi then true else false).
Definition theory_point (mode : string) (tx ty dx edges : list R) : res (list R) :=
  if negb (Nat.eqb (List.length tx) (List.length ty)) then Err "ValueError"
  else if String.eqb mode "interpolate" then
    mapr (fun q => interp1d_strict (List.length tx) (fun i => ln (at_ tx i)) (at_ ty) (ln q)) dx
  else if String.eqb mode "integrate" then
    Ok (map (fun i => trapz (filter (fun p => inside (nth i edges 0) (nth (i + 1) edges 0) (fst p)) (combine tx ty)))
            (seq 0 (List.length edges - 1)))
  else Err "ValueError".
Definition block_int (b : dblock) (s n : string) : res Z :=
  match b s n with Some (BInt k) => Ok k | Some _ => Err "TypeError" | None => Err "BlockNameNotFound" end.
(** 196-200  the number of theory bins. *)
Fixpoint count_bins (b : dblock) (secs : list string) : res Z :=
  match secs with [] => Ok 0%Z | s :: t => (n <- block_int b s "nbin" ;; m <- count_bins b t ;; Ok (n + m)%Z) end.
Section Execute.
  (** Quantity(x, unit).to('Mpc'): None where the unit is none of length. *)
  Variable to_mpc : string -> option R.
  Definition real_space (s : string) : bool := mem s ["wp"; "ds"]%string.
  (** 207-217  the data and theory abscissae of bin j of a section. *)
  Definition abscissae (c : mconfig) (b : dblock) (s : string) (j count : nat) : res (list R * list R) :=
    x <- item count (m_x c) ;;
    if real_space s then
      match to_mpc (m_unit c) with
      | None => Err "UnitConversionError"
      | Some f => tx <- array b s "rp" ;; Ok (map (fun v => v * f) x, tx)
      end
    else
      match b s ("mass_" ++ dec (j + 1))%string with
      | Some (BArr tx) => Ok (x, tx)
      | Some _ => Err "ValueError"
      | None => tx <- array b s ("luminosity_" ++ dec (j + 1)) ;; Ok (x, tx)
      end.
  Definition theory_bin (c : mconfig) (b : dblock) (s : string) (j count : nat) : res (list R) :=
    a <- abscissae c b s j count ;;
    ty <- array b s (bin_key (j + 1)) ;;
    theory_point (m_mode c) (snd a) ty (fst a) (nth count (m_edge c) []).
  (** 202-227  the sections in turn, the bins of each in turn. *)
  Fixpoint section_bins (c : mconfig) (b : dblock) (s : string) (js : list nat) (count : nat) : res (list (list R)) :=
    match js with
    | [] => Ok []
    | j :: js => t <- theory_bin c b s j count ;; r <- section_bins c b s js (S count) ;; Ok (t :: r)
    end.
  Fixpoint all_bins (c : mconfig) (b : dblock) (secs : list string) (count : nat) : res (list (list R)) :=
    match secs with
    | [] => Ok []
    | s :: secs =>
        n <- block_int b s "nbin" ;;
        t <- section_bins c b s (seq 0 (Z.to_nat n)) count ;;
        r <- all_bins c b secs (count + List.length t) ;; Ok (t ++ r)%list
    end.
  Definition theory_bins (c : mconfig) (b : dblock) : res (list (list R)) :=
    n <- count_bins b (m_sections c) ;;
    if negb (Z.eqb n (Z.of_nat (List.length (m_x c)))) then Err "ValueError" else all_bins c b (m_sections c) 0.
  (** 60-64, 235-236  one term of the sum: a slice stops at the end of the matrix, and np.dot
      refuses lengths that differ. *)
  Definition span (n a len : nat) : nat := (Nat.min (a + len) n - Nat.min a n)%nat.
  Definition term (inv : mat) (nr : list nat) (r : list (list R)) (m n : nat) : res R :=
    let rm := nth m r [] in let rn := nth n r [] in
    let sm := starts nr m in let sn := starts nr n in
    if (Nat.eqb (span (m_n inv) sm (nth m nr 0%nat)) (List.length rm) &&
        Nat.eqb (span (m_n inv) sn (nth n nr 0%nat)) (List.length rn))%bool
    then Ok (sumR (List.length rm) (fun a => nth a rm 0 * sumR (List.length rn) (fun b => m_at inv (sm + a) (sn + b) * nth b rn 0)))
    else Err "ValueError".
  Definition total (l : list R) : R := fold_right Rplus 0 l.
  Definition residuals (y t : list (list R)) : res (list (list R)) :=
    mapr (fun p => bcast2 Rminus (fst p) (snd p)) (combine y t).
  Definition chi_square (inv : mat) (nr : list nat) (r : list (list R)) : res R :=
    let k := List.length nr in
    ts <- mapr (fun m => ts <- mapr (term inv nr r m) (seq 0 k) ;; Ok (total ts)) (seq 0 k) ;; Ok (total ts).
  (** 193-247. *)
  Definition mini_execute (c : mconfig) (b : dblock) : dblock * res unit :=
    match (t <- theory_bins c b ;;
           r <- residuals (m_y c) t ;;
           x <- chi_square (m_inv c) (map (@List.length R) (m_y c)) r ;; Ok (t, x)) with
    | Err e => (b, Err e)
    | Ok (t, x) =>
        let b := bput b "data_vector" (m_like c ++ "_CHI2") (BDbl x) in
        let b := bput b "likelihoods" (m_like c ++ "_LIKE") (BDbl (- (1 / 2) * x)) in
        if m_keep c then
          match t with
          | [] => (b, Err "ValueError")
          | _ => (bput (bput b "data_vector" "theory" (BArr (List.concat t))) "data_vector" "data" (BArr (List.concat (m_y c))), Ok tt)
          end
        else (b, Ok tt)
    end.
End Execute.

(** ** utils/correlated_priors.py *)
(** 6-15  "section/name" words; [chol] is np.linalg.cholesky. *)
Record prior := { r_in : list (list string); r_out : list (list string); r_l : mat }.
Definition prior_setup (missing wrong : string) (o : options) (loadtxt : string -> res mat) (chol : mat -> option mat) : res prior :=
  i <- get_string missing wrong o "uncorrelated_parameters" None ;;
  u <- get_string missing wrong o "output_parameters" None ;;
  f <- get_string missing wrong o "covariance" None ;;
  c <- loadtxt f ;;
  match chol c with
  | None => Err "LinAlgError"
  | Some l => Ok {| r_in := map (split_on "/"%char) (words i); r_out := map (split_on "/"%char) (words u); r_l := l |}
  end.
(** for section, name in ...: two parts. *)
Definition two (p : list string) : res (string * string) :=
  match p with [s; n] => Ok (s, n) | _ => Err "ValueError" end.
Definition block_num (b : dblock) (s n : string) : res R :=
  match b s n with Some (BDbl x) => Ok x | Some (BInt k) => Ok (IZR k) | Some _ => Err "TypeError" | None => Err "BlockNameNotFound" end.
(** 17-28  L @ p wants as many parameters as columns. *)
Definition correlate (l : mat) (p : list R) : res (list R) :=
  if Nat.eqb (m_n l) (List.length p)
  then Ok (map (fun i => sumR (m_n l) (fun j => m_at l i j * nth j p 0)) (seq 0 (m_n l))) else Err "ValueError".
Fixpoint put_priors (out : list (list string)) (v : list R) (b : dblock) : dblock * res unit :=
  match out with
  | [] => (b, Ok tt)
  | p :: out =>
      match two p, v with
      | Err e, _ => (b, Err e)
      | Ok _, [] => (b, Err "IndexError")
      | Ok (s, n), x :: v => put_priors out v (bput b s n (BDbl x))
      end
  end.
Definition prior_execute (r : prior) (b : dblock) : dblock * res unit :=
  match (p <- mapr (fun p => sn <- two p ;; block_num b (fst sn) (snd sn)) (r_in r) ;; correlate (r_l r) p) with
  | Err e => (b, Err e)
  | Ok v => put_priors (r_out r) v b
  end.
