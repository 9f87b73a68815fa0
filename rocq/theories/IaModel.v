(** Model of src/onepower/ia.py (AlignmentAmplitudes and SatelliteAlignment).
    Definitions only.  scipy.special.gamma is an argument; the Hankel / FFTLog transform of
    the radial profile (ia.py:932-1017) is not modelled, its result u_ell is an argument. *)
From Coq Require Import ZArith.
From Coquelicot Require Import Complex.
From Verif Require Import Base Quad Interp.
Open Scope string_scope.
Open Scope R_scope.

(** ** Luminosity tables *)

(** np.histogram(x, bins=n, density=True) for a non-empty sample: [n]+1 equally spaced
    edges from the smallest to the largest value (widened by 1/2 when they agree), bins
    closed on the left, the last bin closed on both sides, counts divided by the bin width
    and by the number of values.  External code (numpy). *)
Definition list_min (d : R) (l : list R) : R := fold_left Rmin l d.
Definition list_max (d : R) (l : list R) : R := fold_left Rmax l d.
Definition hist_range (x0 : R) (l : list R) : R * R :=
  let lo := list_min x0 l in let hi := list_max x0 l in
  if Req_EM_T lo hi then (lo - 1 / 2, hi + 1 / 2) else (lo, hi).
Definition hist_edge (n : nat) (x0 : R) (l : list R) (i : nat) : R :=
  linspace (fst (hist_range x0 l)) (snd (hist_range x0 l)) (n + 1) i.
Definition in_bin (n : nat) (e : A1) (i : nat) (x : R) : bool :=
  if Rle_dec (e i) x then
    if Rlt_dec x (e (i + 1)%nat) then true
    else if Nat.eqb (i + 1) n then (if Req_EM_T x (e n) then true else false) else false
  else false.
Definition count_if (p : R -> bool) (l : list R) : nat := List.length (filter p l).
Definition hist_count (n : nat) (x0 : R) (l : list R) (i : nat) : nat :=
  count_if (in_bin n (hist_edge n x0 l) i) l.
Fixpoint sumN (n : nat) (f : nat -> nat) : nat :=
  match n with O => 0%nat | S k => (sumN k f + f k)%nat end.
Definition hist_pdf (n : nat) (x0 : R) (l : list R) (i : nat) : R :=
  INR (hist_count n x0 l i) / (hist_edge n x0 l (i + 1) - hist_edge n x0 l i)
  / INR (sumN n (hist_count n x0 l)).

(** ia.py:341-378  compute_luminosity_pdf.  The file is the list of its (z, loglum) rows. *)
Definition z_edge (nz : nat) (z : A1) (i : nat) : R :=
  let dz := 1 / 2 * (z 1%nat - z 0%nat) in
  if Nat.ltb i nz then z i - dz else z (nz - 1)%nat + dz.
Definition in_zbin (nz : nat) (z : A1) (i : nat) (g : R * R) : bool :=
  if Rle_dec (z_edge nz z i) (fst g) then
    if Rlt_dec (fst g) (z_edge nz z (i + 1)) then true else false
  else false.
Definition lum_in_bin (nz : nat) (z : A1) (gal : list (R * R)) (i : nat) : list R :=
  map (fun g => pow10 (snd g)) (filter (in_zbin nz z i) gal).
Definition lum_table (nz : nat) (z : A1) (nl : nat) (gal : list (R * R)) : A2 * A2 :=
  (fun i j => match lum_in_bin nz z gal i with
              | [] => 0
              | x :: l =>
                  hist_edge nl x (x :: l) j
                  + 1 / 2 * ((hist_edge nl x (x :: l) nl - hist_edge nl x (x :: l) 0) / (1 * INR nl))
              end,
   fun i j => match lum_in_bin nz z gal i with
              | [] => 0
              | x :: l => hist_pdf nl x (x :: l) j
              end).
Definition compute_luminosity_pdf (nz : nat) (z : A1) (nl : nat) (gal : list (R * R)) : res (A2 * A2) :=
  if Nat.leb nz 1 then Err "IndexError" else Ok (lum_table nz z nl gal).

(** ia.py:261-288  _initialize_luminosity_array. *)
Definition nlbins : nat := (100 * 100)%nat.
Definition luminosity_array (nz : nat) (z : A1) (file : option (list (R * R))) : res (A2 * A2) :=
  match file with
  | None => Err "ValueError"
  | Some gal => compute_luminosity_pdf nz z nlbins gal
  end.

(** ** Amplitudes *)

(** ia.py:290-309  mean_l_l0_to_beta. *)
Definition mean_l_l0_to_beta (nl : nat) (xlum pdf : A1) (l0 beta : R) : R :=
  simpson nl (fun i => pdf i * fpow (xlum i / l0) beta) xlum.

(** ia.py:311-339  broken_powerlaw. *)
Definition alignment_ampl (gamma l0 beta beta_low l : R) : R :=
  if Rlt_dec l0 l then gamma * fpow (l / l0) beta else gamma * fpow (l / l0) beta_low.
Definition broken_powerlaw (nl : nat) (xlum pdf : A1) (gamma l0 beta beta_low : R) : R :=
  simpson nl (fun i => pdf i * alignment_ampl gamma l0 beta beta_low (xlum i)) xlum.

(** ia.py:179-213  the pivots are given as logarithms. *)
Definition pivot (v : option R) : option R := option_map pow10 v.

(** ia.py:380-423  alignment_gi.  [None] for an option outside the validated list. *)
Record amplitudes := {
  am_nz : nat; am_z : A1;
  am_central : string; am_satellite : string;
  am_gamma2h : R; am_gamma1h : R; am_beta_cen : R; am_beta_two : option R; am_beta_sat : R;
  am_mpivot_cen : option R; am_mpivot_sat : option R; am_lpivot_cen : option R; am_lpivot_sat : option R;
  am_file_cen : option (list (R * R)); am_file_sat : option (list (R * R)) }.

Definition alignment_gi (a : amplitudes) : res (option A1) :=
  if String.eqb (am_central a) "constant" then Ok (Some (fun _ => am_gamma2h a * 1))
  else if String.eqb (am_central a) "luminosity" then
    match pivot (am_lpivot_cen a) with
    | None => Err "ValueError"
    | Some l0 =>
        bind (luminosity_array (am_nz a) (am_z a) (am_file_cen a)) (fun t =>
        let (lum, pdf) := t in
        match am_beta_two a with
        | Some b2 => Ok (Some (fun i => broken_powerlaw nlbins (lum i) (pdf i) (am_gamma2h a) l0 (am_beta_cen a) b2))
        | None => Ok (Some (fun i => am_gamma2h a * mean_l_l0_to_beta nlbins (lum i) (pdf i) l0 (am_beta_cen a)))
        end)
    end
  else if String.eqb (am_central a) "halo_mass" then
    match pivot (am_mpivot_cen a) with
    | None => Err "ValueError"
    | Some _ =>
        match am_beta_two a with
        | Some _ => Err "ValueError"
        | None => Ok (Some (fun _ => am_gamma2h a * 1))
        end
    end
  else Ok None.

(** ia.py:425-449  gamma_1h_amp. *)
Definition gamma_1h_amp (a : amplitudes) : res (option A1) :=
  if String.eqb (am_satellite a) "constant" then Ok (Some (fun _ => am_gamma1h a * 1))
  else if String.eqb (am_satellite a) "luminosity" then
    match pivot (am_lpivot_sat a) with
    | None => Err "ValueError"
    | Some l0 =>
        bind (luminosity_array (am_nz a) (am_z a) (am_file_sat a)) (fun t =>
        let (lum, pdf) := t in
        Ok (Some (fun i => am_gamma1h a * mean_l_l0_to_beta nlbins (lum i) (pdf i) l0 (am_beta_sat a))))
    end
  else if String.eqb (am_satellite a) "halo_mass" then
    match pivot (am_mpivot_sat a) with
    | None => Err "ValueError"
    | Some _ => Ok (Some (fun _ => am_gamma1h a * 1))
    end
  else Ok None.

(** ** Multipoles *)

(** ia.py:578-589  ell_max. *)
Definition ell_max_set (v : Z) : res Z := if Z.ltb 11 v then Err "ValueError" else Ok v.

(** ia.py:614-626  ell_values = np.arange(0, ell_max + 1, 2): ceil((ell_max + 1) / 2)
    entries, none for a negative ell_max. *)
Definition ell_values (ell_max : Z) : list nat :=
  map (fun i => (2 * i)%nat) (seq 0 (Z.to_nat ((ell_max + 2) / 2))).

(** An element of an array literal. *)
Definition at_ (l : list R) (i : nat) : res R :=
  match nth_error l i with Some v => Ok v | None => Err "IndexError" end.
Fixpoint sum_res (n : nat) (f : nat -> res R) : res R :=
  match n with
  | O => Ok 0
  | S k => bind (sum_res k f) (fun s => bind (f k) (fun x => Ok (s + x)))
  end.

(** scipy.special.binom(x, k) for an integer [k]: the generalised binomial coefficient. *)
Fixpoint binom (x : R) (k : nat) : R :=
  match k with O => 1 | S j => binom x j * (x - INR j) / INR k end.

Section Angular.
  (** scipy.special.gamma. *)
  Variable G : R -> R.

  (** ia.py:753-774  I_x. *)
  Definition I_x (a : R) (b : nat) : R :=
    (1 + (-1) ^ b) * G (a / 2 + 1) * G ((INR b + 1) / 2)
    / (2 * G (a / 2 + INR b / 2 + 3 / 2)).

  (** ia.py:800-835  the hard-coded coefficients. *)
  Definition pre_calc_0 : list R :=
    [0; 0; 277582637 / 100000000; 0; - (19276603 / 100000000); 0; 4743899 / 100000000; 0;
     - (1779024 / 100000000); 0; 832446 / 100000000; 0; - (447308 / 100000000); 0].
  Definition pre_calc_m2 : list R :=
    [0; 0; 471238898 / 100000000; 0; - (261799389 / 100000000); 0; 206167032 / 100000000; 0;
     - (176714666 / 100000000); 0; 157488973 / 100000000; 0; - (143581368 / 100000000); 0].
  (** ia.py:841-856. *)
  Definition gj : list R :=
    [0; 0; PI / 2; 0; PI / 2; 0; 15 * PI / 32; 0; 7 * PI / 16; 0; 105 * PI / 256; 0].

  (** ia.py:776-871  calculate_f_ell: the real factor of the general case, ... *)
  Definition f_ell_general (theta : R) (ell : nat) (b : R) : res R :=
    bind (sum_res (ell + 1) (fun m =>
      bind (sum_res (m + 1) (fun j =>
        bind (at_ gj j) (fun g =>
        Ok (binom (INR m) j * g * sin theta ^ j * cos theta ^ (m - j) * I_x (INR j + b) (m - j)))))
      (fun s => Ok (binom (INR ell) m * binom (1 / 2 * (INR ell + INR m - 1)) ell * s))))
    (fun sum1 => Ok (2 ^ ell * sum1)).
  (** ... the shortcut for two slopes, and the phase. *)
  Definition f_ell (theta : R) (ell : nat) (b : R) : res R :=
    if Req_EM_T theta (PI / 2) then
      if Req_EM_T b 0 then at_ pre_calc_0 ell
      else if Req_EM_T b (-2) then at_ pre_calc_m2 ell
      else f_ell_general theta ell b
    else f_ell_general theta ell b.
  Definition phase (phi : R) : Complex.C := (cos (2 * phi), sin (2 * phi)).
  Definition calculate_f_ell (theta phi : R) (ell : nat) (b : R) : res Complex.C :=
    bind (f_ell theta ell b) (fun x => Ok (Cmult (RtoC x) (phase phi))).

  (** ia.py:873-895  wkm_f_ell at one redshift, mass and wavenumber; [u] has [nu] rows. *)
  Fixpoint Ci_pow (n : nat) : Complex.C := match n with O => RtoC 1 | S k => Cmult Ci (Ci_pow k) end.
  Fixpoint sum_ell (theta phi b : R) (nu : nat) (u : A1) (l : list nat) : res Complex.C :=
    match l with
    | [] => Ok (RtoC 0)
    | ell :: l =>
        bind (calculate_f_ell theta phi ell b) (fun angular =>
        bind (if Nat.ltb (ell / 2) nu then Ok (u (ell / 2)%nat) else Err "IndexError") (fun ue =>
        bind (sum_ell theta phi b nu u l) (fun s =>
        Ok (Cplus (Cmult (Cmult (Cmult (Ci_pow ell) (RtoC (2 * INR ell + 1))) (RtoC ue)) angular) s))))
    end.
  Definition wkm_at (theta phi b : R) (ell_max : Z) (nu : nat) (u : A1) : res R :=
    bind (sum_ell theta phi b nu u (ell_values ell_max)) (fun s => Ok (Cmod s)).
  (** ia.py:512-513  theta_k and phi_k are fixed. *)
  Definition wkm_f_ell (b : R) (ell_max : Z) (nu : nat) (u : A1) : res R :=
    wkm_at (PI / 2) 0 b ell_max nu u.
End Angular.

(** ** Radial profile *)

(** ia.py:897-930  gamma_r_nfw_profile. *)
Definition gamma_r (r rvir a b rcore : R) : R :=
  Rmin (if Rlt_dec r rcore then a * fpow (rcore / rvir) b else a * fpow (r / rvir) b) (3 / 10).
Definition nfw_r (r rs rvir : R) (truncate : bool) : R :=
  if truncate then (if Rle_dec rvir r then 0 else 1 / (r / rs * (1 + r / rs) ^ 2))
  else 1 / (r / rs * (1 + r / rs) ^ 2).
Definition gamma_r_nfw_profile (r rs rvir a b rcore : R) (truncate : bool) : R :=
  gamma_r r rvir a b rcore * nfw_r r rs rvir truncate.
(** The default core radius, ia.py:897. *)
Definition rcore_default : R := 6 / 100.

(** ia.py:953-958  mnfw. *)
Definition mnfw (rs c : R) : R := 4 * PI * rs ^ 3 * (ln (1 + c) - c / (1 + c)).

(** ** Grids *)

(** q[::f] for f >= 1: every f-th entry; [skip] entries are passed over first. *)
Fixpoint every {A} (f skip : nat) (l : list A) : list A :=
  match l with
  | [] => []
  | x :: l => match skip with O => x :: every f (f - 1) l | S s => every f s l end
  end.
Definition slice_step {A} (f : nat) (l : list A) : list A := every f 0 l.

(** ia.py:641-679  _downsample of a one-dimensional quantity ([size] is the number of
    masses).  An empty quantity has no last entry. *)
Definition downsample {A} (differ : A -> A -> bool) (hankel : bool) (size nmass : nat) (q : list A)
  : res (list A) :=
  if negb hankel then Ok q
  else if Nat.eqb size nmass then Ok q
  else if Nat.ltb size nmass then Err "ValueError"
  else if Nat.eqb nmass 0 then Err "ZeroDivisionError"
  else
    let d := slice_step (size / nmass) q in
    match rev d, rev q with
    | x :: _, y :: _ => Ok (if differ x y then app d [y] else d)
    | _, _ => Err "IndexError"
    end.
Definition neqR (x y : R) : bool := if Req_EM_T x y then false else true.
Definition downsample1 := downsample neqR.
(** The two-dimensional case as a list of columns; a column is the list of the values at
    each redshift.  np.all(last kept != last): every entry differs. *)
Definition all_differ (x y : list R) : bool := forallb (fun p => neqR (fst p) (snd p)) (combine x y).
Definition downsample2 := downsample all_differ.

(** ia.py:628-639  k_vec. *)
Definition ia_nk (fftlog : bool) (nk : nat) : nat := if fftlog then 100%nat else nk.
Definition ia_k_vec (fftlog : bool) (nk : nat) : A1 :=
  logspace (log10 (1 / 1000)) (log10 1000) (ia_nk fftlog nk).

(** scipy RegularGridInterpolator((x1, x2), v, bounds_error=False, fill_value=None):
    bilinear, extrapolating the outer cells. *)
Definition bilinear (n1 : nat) (x1 : A1) (n2 : nat) (x2 : A1) (v : A2) (q1 q2 : R) : R :=
  let h1 := clip_idx n1 (searchsorted n1 x1 q1) in let l1 := (h1 - 1)%nat in
  let h2 := clip_idx n2 (searchsorted n2 x2 q2) in let l2 := (h2 - 1)%nat in
  let s := (q1 - x1 l1) / (x1 h1 - x1 l1) in
  let t := (q2 - x2 l2) / (x2 h2 - x2 l2) in
  (1 - s) * (1 - t) * v l1 l2 + (1 - s) * t * v l1 h2 + s * (1 - t) * v h1 l2 + s * t * v h1 h2.

(** ia.py:1031-1080  upsampled_wkm at one redshift: [w m k] on the internal grid. *)
Definition upsampled_hankel (nm : nat) (mass : A1) (nk : nat) (k_vec : A1) (w : A2) (k m : R) : R :=
  pow10 (bilinear nk (fun i => log10 (k_vec i)) nm (fun j => log10 (mass j))
           (fun i j => log10 (w j i / k_vec i ^ 2)) (log10 k) (log10 m)) * k ^ 2.
Definition upsampled_fftlog (nk : nat) (k_vec : A1) (w : A2) (k : R) (m : nat) : R :=
  interp1d Extrapolate nk k_vec (w m) k.
