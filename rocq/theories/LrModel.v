(** Model of cosmosis_modules/legacy/ia/ia_radial_interface.py with ia_radial_lib.py, and of
    get_satellite_alignment in cosmosis_modules/legacy/pk/pk_util.py.  Definitions only.
    nfw_profile, mass_nfw and gamma_r_nfw_profile (ia_radial_lib.py 138-156) and the integrals of
    compute_uell_gamma_r_hankel (168-194) have the bodies of their namesakes in src/onepower/ia.py
    and are those of IaModel and UellModel.  Simplified: wavenumbers are positive; the scale radii
    and the concentrations have the same shape, where numpy would also broadcast a single row or
    column; the interpolation of get_satellite_alignment has two nodes at least along each axis, and they increase; names of the
    block are compared with their case; the messages are left out.  legendre_coefficients (104-106),
    nfw_profile_trunc (147-148), vector_step_function (158-162) and radvir (165-166) are not called. *)
From Coq Require Import ZArith.
From Coquelicot Require Import Complex.
From Verif Require Import Base Quad Interp FftModel RsModel PipeModel OptModel ChainModel PredModel MiniModel IaModel UellModel AupModel LiaModel LhModel.
Open Scope R_scope.

(** ** ia_radial_lib.py *)
(** 98-102  I_x. *)
Definition lr_I_x (a : R) (b : nat) : R :=
  let x := linspace (-1 + 1 / 10 ^ 10) (1 - 1 / 10 ^ 10) 500 in
  simpson 500 (fun i => fpow (1 - x i ^ 2) (a / 2) * x i ^ b) x.
(** 129-136: the general case. *)
Definition lr_f_general (theta : R) (l : nat) (b : R) : res R :=
  bind (sum_res (l + 1) (fun m =>
    bind (sum_res (m + 1) (fun j =>
      bind (IaModel.at_ gj j) (fun g =>
      Ok (binom (INR m) j * g * sin theta ^ j * cos theta ^ (m - j) * lr_I_x (INR j + b) (m - j)))))
    (fun s => Ok (binom (INR l) m * binom (1 / 2 * (INR l + INR m - 1)) l * s))))
  (fun sum1 => Ok (2 ^ l * sum1)).
(** 118-125: .get(gamma_b) is None for any other slope. *)
Definition lr_f (theta : R) (l : nat) (b : R) : res R :=
  if Req_EM_T theta (PI / 2) then
    if Req_EM_T b 0 then IaModel.at_ pre_calc_0 l else if Req_EM_T b (-2) then IaModel.at_ pre_calc_m2 l else Err "TypeError"
  else lr_f_general theta l b.
(** 108-136  calculate_f_ell. *)
Definition lr_f_ell (theta phi : R) (l : nat) (b : R) : res Complex.C :=
  bind (lr_f theta l b) (fun x => Ok (Cmult (RtoC x) (phase phi))).
(** 201-213  wkm_f_ell: the angular part of each multipole, and the sum at one redshift, mass and
    wavenumber, where uell[ell // 2] is [u (ell / 2)]. *)
Fixpoint lr_angular (theta phi b : R) (l : list nat) : res (list (nat * Complex.C)) :=
  match l with [] => Ok [] | ell :: l => a <- lr_f_ell theta phi ell b ;; r <- lr_angular theta phi b l ;; Ok ((ell, a) :: r) end.
Fixpoint lr_sum (u : A1) (l : list (nat * Complex.C)) : Complex.C :=
  match l with
  | [] => RtoC 0
  | (ell, ang) :: l =>
      let rad := Cmult (Cmult (Ci_pow ell) (RtoC (2 * INR ell + 1))) (RtoC (u (ell / 2)%nat)) in
      Cplus (fst rad * fst ang - snd rad * snd ang, fst rad * snd ang + snd rad * fst ang) (lr_sum u l)
  end.
Definition lr_wkm (u : A1) (l : list (nat * Complex.C)) : R := sqrt (fst (lr_sum u l) ^ 2 + snd (lr_sum u l) ^ 2).

(** ** ia_radial_interface.py *)
Record rconfig := { rc_nk : nat; rc_k : A1; rc_nmass : Z; rc_suffix : string; rc_hankel : Z; rc_ell_max : Z }.
Section LrSetup.
  Variables missing wrong : string.
  Variable o : options.
  (** 28-66. *)
  Definition lr_setup : res rconfig :=
    nmass <- get_int missing wrong o "nmass" (Some 5%Z) ;;
    kmin <- get_double missing wrong o "kmin" (Some (1 / 1000)) ;;
    kmax <- get_double missing wrong o "kmax" (Some 1000) ;;
    nk <- get_int missing wrong o "nk" (Some 10%Z) ;;
    u <- (if Z.ltb nk 0 then Err "ValueError" else Ok tt) ;;
    name <- get_string missing wrong o "output_suffix" (Some ""%string) ;;
    ell_max <- get_int missing wrong o "ell_max" (Some 6%Z) ;;
    u <- (if Z.ltb 11 ell_max then Err "ValueError" else Ok tt) ;;
    n <- get_int missing wrong o "N_hankel" (Some 350%Z) ;;
    u <- (if Z.eqb n 0 then Err "ZeroDivisionError" else Ok tt) ;;
    Ok {| rc_nk := Z.to_nat nk; rc_k := logspace (log10 kmin) (log10 kmax) (Z.to_nat nk); rc_nmass := nmass;
          rc_suffix := suffix_of (lower name); rc_hankel := n; rc_ell_max := ell_max |}.
End LrSetup.

(** l[::f] for f <> 0. *)
Definition stride {A} (f : Z) (l : list A) : list A :=
  if Z.ltb 0 f then slice_step (Z.to_nat f) l else slice_step (Z.to_nat (- f)) (rev l).
Definition last_of {A} (l : list A) : res A := match rev l with x :: _ => Ok x | [] => Err "IndexError" end.
(** t[:, -1] for the rows of [t], and the concatenation of a column. *)
Fixpoint last_column (t : list (list R)) : res (list R) :=
  match t with [] => Ok [] | r :: t => x <- last_of r ;; l <- last_column t ;; Ok (x :: l) end.
Definition add_column (t : list (list R)) (l : list R) : list (list R) := map (fun p => (fst p ++ [snd p])%list) (combine t l).
Record halos := { ha_mass : list R; ha_c : list (list R); ha_rs : list (list R); ha_rvir : list R }.
(** 7-26  downsample_halo_parameters. *)
Definition lr_downsample (nmass : Z) (h : halos) : res halos :=
  let n := Z.of_nat (List.length (ha_mass h)) in
  if Z.eqb n nmass then Ok h
  else if Z.eqb nmass 0 then Err "ZeroDivisionError"
  else let f := (n / nmass)%Z in
    if Z.eqb f 0 then Err "ValueError"
    else
      let d := {| ha_mass := stride f (ha_mass h); ha_c := map (stride f) (ha_c h); ha_rs := map (stride f) (ha_rs h); ha_rvir := stride f (ha_rvir h) |} in
      x <- last_of (ha_mass d) ;; y <- last_of (ha_mass h) ;;
      if neqR x y then
        lc <- last_column (ha_c h) ;; lr <- last_column (ha_rs h) ;; lv <- last_of (ha_rvir h) ;;
        Ok {| ha_mass := ha_mass d ++ [y]; ha_c := add_column (ha_c d) lc; ha_rs := add_column (ha_rs d) lr; ha_rvir := ha_rvir d ++ [lv] |}
      else Ok d.

Section LrExecute.
  (** put_grid over a table that is there already: replaced ([over]) or refused. *)
  Variable over : bool.
  (** [ht n nu] is hankel.HankelTransform(nu, n, pi / n). *)
  Variable ht : Z -> R -> (R -> R) -> R -> R.
  Variable c : rconfig.
  (** 71-97. *)
  Record rinput := { ri_b : R; ri_a : list R; ri_z : list R; ri_halos : halos }.
  Definition lr_input (b : dblock) : res rinput :=
    slope <- block_num b ("intrinsic_alignment_parameters" ++ rc_suffix c) "gamma_1h_radial_slope" ;;
    a <- array b ("ia_small_scale_alignment" ++ rc_suffix c) "alignment_1h" ;;
    z <- array b "concentration_m" "z" ;;
    m <- array b "concentration_m" "m_h" ;; cc <- table_at b "concentration_m" "c" ;;
    rs <- table_at b "nfw_scale_radius_m" "rs" ;; rv <- array b "virial_radius" "rvir_m" ;;
    u <- (if Z.ltb (Z.of_nat (List.length m)) (rc_nmass c) then Err "ValueError" else Ok tt) ;;
    h <- lr_downsample (rc_nmass c) {| ha_mass := m; ha_c := cc; ha_rs := rs; ha_rvir := rv |} ;;
    Ok {| ri_b := slope; ri_a := a; ri_z := z; ri_halos := h |}.
  (** The lookups of the loops in compute_uell_gamma_r_hankel. *)
  Definition lr_found (i : rinput) : bool :=
    let h := ri_halos i in
    forallb (fun jz => forallb (fun im =>
      (Nat.ltb jz (List.length (ha_rs h)) && Nat.ltb im (List.length (nth jz (ha_rs h) [])) && Nat.ltb im (List.length (ha_rvir h)) && Nat.ltb jz (List.length (ri_a i)))%bool)
      (seq 0 (List.length (ha_mass h)))) (seq 0 (List.length (ri_z i))).
  (** ia_radial_lib.py 168-194  uell[ell // 2, jz, im] at wavenumber [k]. *)
  Definition lr_uell (i : rinput) (jz im : nat) (k : R) (e : nat) : R :=
    let h := ri_halos i in
    uell_hankel (ht (rc_hankel c)) (2 * e) (entry (ha_rs h) jz im) (entry (ha_c h) jz im) (ChainModel.at_ (ha_rvir h) im) (ChainModel.at_ (ri_a i) jz) (ri_b i) false k.
  (** 103-118: what is written. *)
  Definition lr_tables (b : dblock) : res (list lput) :=
    i <- lr_input b ;;
    u <- (if same_shape (ha_rs (ri_halos i)) (ha_c (ri_halos i)) then Ok tt else Err "ValueError") ;;
    u <- (match ell_values (rc_ell_max c) with [] => Ok tt | _ => if lr_found i then Ok tt else Err "IndexError" end) ;;
    ang <- lr_angular (PI / 2) 0 (ri_b i) (ell_values (rc_ell_max c)) ;;
    let m := ha_mass (ri_halos i) in
    let name n jz := (n ++ dec jz ++ rc_suffix c)%string in
    Ok (map (fun jz => Grid "wkm" (name "mass_"%string jz) m (name "k_h_"%string jz) (row (rc_nk c) (rc_k c)) (name "w_km_"%string jz)
               (grid2 (List.length m) (rc_nk c) (fun im ik => lr_wkm (lr_uell i jz im (rc_k c ik)) ang))) (seq 0 (List.length (ri_z i)))
        ++ [Plain "wkm" ("z" ++ rc_suffix c) (BArr (ri_z i))])%list.
  (** 68-120. *)
  Definition lr_execute (b : dblock) : dblock * res unit := read_write over lr_tables b.
End LrExecute.

(** ** pk_util.py 94-109  get_satellite_alignment: by redshift, mass and wavenumber. *)
Definition sat_alignment_at (b : dblock) (k_vec mass : list R) (suffix : string) (jz : nat) : res (list (list R)) :=
  w <- table_at b "wkm" ("w_km_" ++ dec jz ++ suffix) ;;
  k <- array b "wkm" ("k_h_" ++ dec jz ++ suffix) ;;
  m <- array b "wkm" ("mass_" ++ dec jz ++ suffix) ;;
  if fits m k w then
    Ok (map (fun mq => map (fun kq => upsampled_hankel (List.length m) (ChainModel.at_ m) (List.length k) (ChainModel.at_ k) (entry w) kq mq) k_vec) mass)
  else Err "ValueError".
Fixpoint each {A} (n : nat) (f : nat -> res A) : res (list A) :=
  match n with O => Ok [] | S k => l <- each k f ;; x <- f k ;; Ok (l ++ [x])%list end.
Definition get_satellite_alignment (b : dblock) (k_vec mass : list R) (nz : nat) (suffix : string) : res (list (list (list R))) :=
  each nz (sat_alignment_at b k_vec mass suffix).
