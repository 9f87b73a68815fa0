(** Model of cosmosis_modules/pk_to_real/pyfftlog.py.  Definitions only.  Gamma functions
    enter through [lgr x y], [lgi x y]: real and imaginary part of scipy's loggamma(x + i y). *)
From Coq Require Import ZArith.
From Verif Require Import Base.
Open Scope R_scope.

(** np.round: nearest integer, ties to even. *)
Definition np_round (x : R) : Z :=
  let f := Int_part x in
  if Rlt_dec (x - IZR f) (/2) then f
  else if Rlt_dec (/2) (x - IZR f) then (f + 1)%Z
  else if Z.even f then f else (f + 1)%Z.

(** np.arange(1, s/2): the integers m with 1 <= m < s/2. *)
Definition arange_half (s : nat) : list nat := filter (fun m => Nat.ltb (2 * m) s) (seq 1 s).

(** An array made by np.empty: [None] is a cell nothing was stored in. *)
Definition cells := list (option R).
Definition np_empty (n : nat) : cells := repeat None n.
Definition xget (xs : cells) (i : nat) : res R :=
  match nth_error xs i with None => Err "IndexError" | Some None => Err "uninitialised" | Some (Some v) => Ok v end.
(** xs[-i]. *)
Definition xget_back (xs : cells) (i : nat) : res R :=
  if Nat.leb i (List.length xs) then xget xs (List.length xs - i) else Err "IndexError".
Fixpoint xput (xs : cells) (i : nat) (v : R) : cells :=
  match xs, i with
  | [], _ => []
  | _ :: t, O => Some v :: t
  | x :: t, S j => x :: xput t j v
  end.
Definition xset (xs : cells) (i : nat) (v : R) : res cells :=
  if Nat.ltb i (List.length xs) then Ok (xput xs i v) else Err "IndexError".
(** xs[start::step] = v, with v given as a list; numpy's broadcast of a one-element v is left out. *)
Fixpoint put_stride (xs : cells) (start step : nat) (v : list R) : cells :=
  match v with [] => xs | a :: t => put_stride (xput xs start a) (start + step) step t end.
Definition slots (len start step : nat) : nat := if Nat.leb len start then 0%nat else S ((len - start - 1) / step).
Definition xset_slice (xs : cells) (start step : nat) (v : list R) : res cells :=
  if Nat.eqb (slots (List.length xs) start step) (List.length v) then Ok (put_stride xs start step v) else Err "ValueError".

(** xs[idx(m)] for an index array m. *)
Definition xread (xs : cells) (idx : nat -> nat) (ms : list nat) : res (nat -> R) :=
  if forallb (fun m => Nat.ltb (idx m) (List.length xs)) ms then
    if forallb (fun m => is_ok (xget xs (idx m))) ms
    then Ok (fun m => match xget xs (idx m) with Ok v => v | Err _ => 0 end) else Err "uninitialised"
  else Err "IndexError".
Definition upd (f : A1) (i : nat) (v : R) : A1 := fun j => if Nat.eqb j i then v else f j.
(** f[idx(m)] and f[idx(m)] = v(m) on an array of length n. *)
Definition fread (n : nat) (f : A1) (idx : nat -> nat) (ms : list nat) : res (nat -> R) :=
  if forallb (fun m => Nat.ltb (idx m) n) ms then Ok (fun m => f (idx m)) else Err "IndexError".
Definition fwrite (n : nat) (f : A1) (idx : nat -> nat) (ms : list nat) (v : nat -> R) : res A1 :=
  if forallb (fun m => Nat.ltb (idx m) n) ms
  then Ok (fold_left (fun g m => upd g (idx m) (v m)) ms f) else Err "IndexError".

(** scipy.fftpack.rfft (external): [y0, Re y1, Im y1, Re y2, ...]. *)
Definition rfft (n : nat) (a : A1) (i : nat) : R :=
  if Nat.odd i then sumR n (fun j => a j * cos (2 * PI * INR ((i + 1) / 2) * INR j / INR n))
  else - sumR n (fun j => a j * sin (2 * PI * INR (i / 2) * INR j / INR n)) + (if Nat.eqb i 0 then sumR n a else 0).
(** scipy.fftpack.irfft (external), with its factor 1/n. *)
Definition irfft (n : nat) (y : A1) (j : nat) : R :=
  (y 0%nat
   + 2 * sumR ((n - 1) / 2) (fun k => y (2 * S k - 1)%nat * cos (2 * PI * INR (S k) * INR j / INR n)
                                      - y (2 * S k)%nat * sin (2 * PI * INR (S k) * INR j / INR n))
   + (if Nat.even n then y (n - 1)%nat * cos (PI * INR j) else 0)) / INR n.

Notation "x <- m ;; k" := (bind m (fun x => k)) (at level 61, m at next level, right associativity).

Section Gamma.
  Variables lgr lgi : R -> R -> R.

  (** 687-740  krgood. *)
  Definition krgood (mu q dlnr kr : R) : R :=
    if Req_EM_T dlnr 0 then kr else
    let xp := (mu + 1 + q) / 2 in
    let xm := (mu + 1 - q) / 2 in
    let y := PI / (2 * dlnr) in
    let arg := ln (2 / kr) / dlnr + (lgi xp y + lgi xm y) / PI in
    kr * exp ((arg - IZR (np_round arg)) * dlnr).

  (** 245-267  adjusting kr; kropt 3 asks on the terminal and is left out. *)
  Definition adjust_kr (mu q dlnr kr : R) (kropt : nat) : res R :=
    match kropt with
    | 0%nat => Ok kr
    | 1%nat => Ok (krgood mu q dlnr kr)
    | 2%nat => let d := krgood mu q dlnr kr in
               if Rle_dec (/ 10 ^ 15) (Rabs (kr / d - 1)) then Ok d else Ok kr
    | _ => Err "interactive"
    end.

  (** 307-308  a non-positive integer. *)
  Definition negi (x : R) : bool :=
    (if Req_EM_T (IZR (np_round x)) x then true else false) && (if Rle_dec x 0 then true else false).
  (** 313-319  the product over m is applied to an array, not accumulated: the list of its entries. *)
  Definition both_negi (q xp xm : R) : list R :=
    let amp := exp (ln 2 * q) in
    if Rlt_dec xm xp then map (fun m => amp * (xm + INR m - 1)) (seq 1 (Z.to_nat (np_round (xp - xm))))
    else if Rlt_dec xp xm then map (fun m => amp / (xp + INR m - 1)) (seq 1 (Z.to_nat (np_round (xm - xp))))
    else [amp].
  (** 303-352  xsave1; storing an array of several elements in one cell raises. *)
  Definition first_coefficient (mu q : R) : res R :=
    let xp := (mu + 1 + q) / 2 in
    let xm := (mu + 1 - q) / 2 in
    if negi xp || negi xm then
      if negi xp && negi xm then
        match both_negi q xp xm with
        | [amp] => Ok (amp * cos (IZR (np_round (xp + xm)) * PI))
        | _ => Err "ValueError"
        end
      else Ok (0 * cos 0)
    else Ok (exp (ln 2 * q + lgr xp 0 - lgr xm 0) * cos (lgi xp 0 + lgi xm 0)).

  (** 191-392  fhti; for n = 0 the bare kr is returned, which no caller can unpack. *)
  Definition fhti (n : nat) (mu dlnr q kr0 : R) (kropt : nat) : res (R * cells) :=
    kr <- adjust_kr mu q dlnr kr0 kropt ;;
    if Nat.eqb n 0 then Err "TypeError" else
    let ln2kr := ln (2 / kr) in
    let d := PI / (INR n * dlnr) in
    let m := arange_half (n + 1) in
    if Req_EM_T q 0 then
      let xp := (mu + 1) / 2 in
      let arg := map (fun m => 2 * (ln2kr * (INR m * d) + lgi xp (INR m * d))) m in
      xs <- xset (np_empty (2 * List.length arg + 3)) 0 q ;;
      xs <- xset xs 1 dlnr ;;
      xs <- xset xs 2 kr ;;
      xs <- xset_slice xs 3 2 (map cos arg) ;;
      xs <- xset_slice xs 4 2 (map sin arg) ;;
      Ok (kr, xs)
    else
      let xp := (mu + 1 + q) / 2 in
      let xm := (mu + 1 - q) / 2 in
      xsave1 <- first_coefficient mu q ;;
      let amp := map (fun m => exp (ln 2 * q + lgr xp (INR m * d) - lgr xm (INR m * d))) m in
      let arg := map (fun m => 2 * ln2kr * (INR m * d) + lgi xp (INR m * d) + lgi xm (INR m * d)) m in
      xs <- xset (np_empty (3 * List.length arg + 4)) 0 q ;;
      xs <- xset xs 1 dlnr ;;
      xs <- xset xs 2 kr ;;
      xs <- xset xs 3 xsave1 ;;
      xs <- xset_slice xs 4 3 amp ;;
      xs <- xset_slice xs 5 3 (map cos arg) ;;
      xs <- xset_slice xs 6 3 (map sin arg) ;;
      Ok (kr, xs).
End Gamma.

(** 611-624  the phase multiplication common to both cases. *)
Definition rotate (n : nat) (f : A1) (ms : list nat) (c s : nat -> R) : res A1 :=
  ar <- fread n f (fun m => 2 * m - 1)%nat ms ;;
  ai <- fread n f (fun m => 2 * m)%nat ms ;;
  g <- fwrite n f (fun m => 2 * m - 1)%nat ms (fun m => ar m * c m - ai m * s m) ;;
  fwrite n g (fun m => 2 * m)%nat ms (fun m => ar m * s m + ai m * c m).
(** 634-641, 677-682  last element; division by zero, an infinity in numpy, is 0 times the inverse here. *)
Definition last_element (n : nat) (f : A1) (ar : R) (tdir : Z) : A1 :=
  if Z.eqb tdir 1 then upd f (n - 1) (f (n - 1)%nat * ar)
  else if Z.eqb tdir (-1) then upd f (n - 1) (f (n - 1)%nat / ar) else f.
(** 562-684  fhtq, n the length of [a]. *)
Definition fhtq (n : nat) (a : A1) (xs : cells) (tdir : Z) : res A1 :=
  q <- xget xs 0 ;;
  let fct := rfft n a in
  let ms := arange_half n in
  fct <- (if Req_EM_T q 0 then
            c <- xread xs (fun m => 2 * m + 1)%nat ms ;;
            s <- xread xs (fun m => 2 * m + 2)%nat ms ;;
            fct <- rotate n fct ms c s ;;
            if Nat.eqb (n mod 2) 0 then
              ar <- xget_back xs 2 ;;
              Ok (last_element n fct ar tdir)
            else Ok fct
          else
            c <- xread xs (fun m => 3 * m + 2)%nat ms ;;
            s <- xread xs (fun m => 3 * m + 3)%nat ms ;;
            fct <- rotate n fct ms c s ;;
            fct <- (if Z.eqb tdir 1 then
                      x1 <- xget xs 3 ;;
                      am <- xread xs (fun m => 3 * m + 1)%nat ms ;;
                      let fct := upd fct 0 (fct 0%nat * x1) in
                      fct <- fwrite n fct (fun m => 2 * m - 1)%nat ms (fun m => fct (2 * m - 1)%nat * am m) ;;
                      fwrite n fct (fun m => 2 * m)%nat ms (fun m => fct (2 * m)%nat * am m)
                    else if Z.eqb tdir (-1) then
                      x1 <- xget xs 3 ;;
                      am <- xread xs (fun m => 3 * m + 1)%nat ms ;;
                      let fct := upd fct 0 (if Req_EM_T x1 0 then 0 else fct 0%nat / x1) in
                      fct <- fwrite n fct (fun m => 2 * m - 1)%nat ms (fun m => fct (2 * m - 1)%nat / am m) ;;
                      fwrite n fct (fun m => 2 * m)%nat ms (fun m => fct (2 * m)%nat / am m)
                    else Ok fct) ;;
            if Nat.eqb (n mod 2) 0 then
              c <- xget xs (3 * (n / 2) + 2) ;;
              am <- xget xs (3 * (n / 2) + 1) ;;
              Ok (last_element n fct (c * am) tdir)
            else Ok fct) ;;
  let fct := irfft n fct in
  Ok (fun j => fct (n - 1 - j)%nat).

(** 486-559  fht. *)
Definition fht (n : nat) (a : A1) (xs : cells) (tdir : Z) : res A1 :=
  q <- xget xs 0 ;;
  dlnr <- xget xs 1 ;;
  kr <- xget xs 2 ;;
  let jc := (INR n + 1) / 2 in
  let j i := INR i + 1 in
  let fct := if Req_EM_T q 0 then a else fun i => a i * exp (- IZR tdir * q * (j i - jc) * dlnr) in
  fct <- fhtq n fct xs tdir ;;
  Ok (if Req_EM_T q 0 then fct else fun i => fct i * exp (- IZR tdir * q * ((j i - jc) * dlnr + ln kr))).

(** 395-483  fftl. *)
Definition fftl (n : nat) (a : A1) (xs : cells) (rk : R) (tdir : Z) : res A1 :=
  q <- xget xs 0 ;;
  dlnr <- xget xs 1 ;;
  kr <- xget xs 2 ;;
  let jc := (INR n + 1) / 2 in
  let j i := INR i + 1 in
  let fct := fun i => a i * exp (- IZR tdir * (q - /2) * (j i - jc) * dlnr) in
  fct <- fhtq n fct xs tdir ;;
  Ok (fun i => fct i * exp (- IZR tdir * ((q + /2) * (j i - jc) * dlnr + q * ln kr - ln rk / 2))).
