(** Model of cosmosis_modules/legacy/bnl (bnl_interface.py with bnl_util.py, and
    bnl_interface_class.py) and of cosmosis_modules/legacy/bnl_delete/bnl_interface_delete.py.
    Definitions only.
    The bodies of test_cosmo, the two truncations, minimum_halo_mass and hl_envelopes_idx are those
    of their namesakes in src/onepower/bnl.py and are the definitions of BnlModel.
    The Dark Emulator, scipy's curve_fit and its quadratic interpolation are arguments.
    Simplified: the entry of the block that holds beta_interp is an argument beside the block, since
    it has four axes; an option read with brackets has the type its use needs; the value of
    Pk_hh0 and the first db (bnl_util.py 117-119) are overwritten before they are used and are left
    out, as are rvir, the copy of the redshifts and the messages. *)
From Coq Require Import ZArith.
From Verif Require Import Base Quad Interp FftModel BnlModel OptModel Spec ChainModel MiniModel LhModel LkModel.
Open Scope R_scope.

(** ** Arrays of one or of four axes *)
Inductive nd_array := NdOne (x : R) | NdFour (d0 d1 d2 d3 : nat) (f : nat -> nat -> nat -> nat -> R).

(** ** bnl_util.py *)
Section LegacyDarkQuest.
  Variable phh : R -> R -> R -> R.
  Variable plin : R -> R.
  Variable quadratic : list R -> list R -> res (R -> R).
  (** curve_fit of a constant: the abscissae and the ordinates to the fitted constant. *)
  Variable fit : list R -> list R -> res R.

  (** bnl_util.py 99-129  one pair of masses. *)
  Definition lb_pair (ks : list R) (kmax m1 m2 : R) : res (R -> R) :=
    let b1 := b01 phh plin m1 in
    let b2 := b01 phh plin m2 in
    a <- fit (filter hk_mask ks) (map (fun k => phh k m1 m2) (filter hk_mask ks)) ;;
    let beta := fun k => (phh k m1 m2 - 1 * a) / (b1 * b2 * plin k) - 1 in
    let data := map (fun k => Rabs (beta k + 1)) ks in
    e <- hl_envelopes_idx data 1 1 ;;
    f <- quadratic (map (fun i => nth i ks 0) (snd e)) (map (fun i => nth i data 0) (snd e)) ;;
    Ok (fun k => (f k - 1 - (f klin - 1)) * low_k_truncation k klin * high_k_truncation k (3 * kmax)).
End LegacyDarkQuest.

(** bnl_util.py 94-129  the double loop: below the diagonal the entry on the other side is copied. *)
Fixpoint lb_inner {A} (b : nat -> nat -> res A) (i : nat) (js : list nat) (t : nat -> nat -> A) : res (nat -> nat -> A) :=
  match js with
  | [] => Ok t
  | j :: js => if Nat.ltb j i then lb_inner b i js (set2 t i j (t j i)) else v <- b i j ;; lb_inner b i js (set2 t i j v)
  end.
Fixpoint lb_outer {A} (b : nat -> nat -> res A) (n : nat) (is : list nat) (t : nat -> nat -> A) : res (nat -> nat -> A) :=
  match is with
  | [] => Ok t
  | i :: is => t <- lb_inner b i (seq 0 n) t ;; lb_outer b n is t
  end.
(** bnl_util.py 74-131  compute_bnl_darkquest, called with one grid of masses twice. *)
Definition lb_darkquest (phh : R -> R -> R -> R) (plin : R -> R) (quadratic : list R -> list R -> res (R -> R)) (fit : list R -> list R -> res R)
    (log10M ks : list R) (kmax : R) : res (nat -> nat -> nat -> R) :=
  let M := map pow10 log10M in
  let n := List.length M in
  lb_outer (fun i j => f <- lb_pair phh plin quadratic fit ks kmax (nth i M 0) (nth j M 0) ;; Ok (fun ik => f (nth ik ks 0))) n (seq 0 n) (fun _ _ _ => 0).
(** bnl_util.py 133-155  create_bnl_interpolation_function. *)
Definition lb_interpolation (phh : R -> R -> R -> R -> R) (plin : R -> R -> R) (quadratic : list R -> list R -> res (R -> R)) (fit : list R -> list R -> res R)
    (Om : R) : res (R -> R -> R -> R) :=
  let lm := fun i => log10 (grid_M Om i) in
  let lk := fun i => log10 (grid_k i) in
  beta <- lb_darkquest (phh (1 / 100)) (plin (1 / 100)) quadratic fit (map lm (seq 0 lenM)) (map grid_k (seq 0 lenk)) (snd (minimum_halo_mass Om)) ;;
  Ok (rgi_nearest lenM lm lenk lk beta).

(** np.vstack(np.meshgrid(x, y, z)).reshape(3, -1).T: the default indexing puts y first. *)
Definition meshgrid3 {A} (xs ys zs : list A) : list (A * (A * A)) :=
  flat_map (fun y => flat_map (fun x => map (fun z => (x, (y, z))) zs) xs) ys.
(** bnl_interface.py 104-112  the table. *)
Definition lb_table (f : R -> R -> R -> R) (mass k_vec : list R) : nat -> nat -> nat -> R :=
  let n := List.length mass in
  let indices := meshgrid3 (seq 0 n) (seq 0 n) (seq 0 (List.length k_vec)) in
  let values := meshgrid3 (map log10 mass) (map log10 mass) (map log10 k_vec) in
  fancy_set (fun _ _ _ => 0) indices (map (fun v => f (fst v) (fst (snd v)) (snd (snd v))) values).

(** ** setup, bnl_interface.py 36-72 and bnl_interface_class.py 18-50 *)
Record bconfig := { bc_mass : list R; bc_nk : Z; bc_bnl : bool; bc_update : Z }.
Section LbSetup.
  Variables missing wrong : string.
  Variable o : options.
  (** [flag]: interpolate_bnl is read (bnl_interface.py 58), and has no effect. *)
  Definition lb_setup (flag : bool) : res bconfig :=
    lo <- get_double missing wrong o "log_mass_min" None ;; hi <- get_double missing wrong o "log_mass_max" None ;;
    n <- get_int missing wrong o "nmass" None ;;
    if (n =? 0)%Z then Err "ZeroDivisionError"%string else
    let d := (hi - lo) / IZR n in
    if Req_EM_T d 0 then Err "ZeroDivisionError"%string else
    let mass := row (arange_len lo hi d) (fun i => pow10 (arange lo d i)) in
    zmin <- get_double missing wrong o "zmin" None ;; zmax <- get_double missing wrong o "zmax" None ;; nz <- get_int missing wrong o "nz" None ;;
    if (nz <? 0)%Z then Err "ValueError"%string else
    nk <- get_int missing wrong o "nk" None ;;
    on <- get_bool missing wrong o "bnl" (Some false) ;;
    ignored <- (if flag then get_bool missing wrong o "interpolate_bnl" (Some true) else Ok true) ;;
    update <- (if on then get_int missing wrong o "update_bnl" None else Ok 1%Z) ;;
    Ok {| bc_mass := mass; bc_nk := nk; bc_bnl := on; bc_update := update |}.
End LbSetup.

(** ** execute *)
(** bnl_interface.py 82-83. *)
Definition lb_wave (nk : Z) (b : dblock) : res (list R) :=
  l <- array b "matter_power_lin" "k_h" ;;
  match l with
  | [] => Err "IndexError"%string
  | x :: _ => if (nk <? 0)%Z then Err "ValueError"%string else Ok (row (Z.to_nat nk) (logspace (log10 x) (log10 (last l 0)) (Z.to_nat nk)))
  end.

(** The state kept between calls: cached_bnl['num_calls'] and cached_bnl['cached_bnl']. *)
Record bstate := { bs_calls : Z; bs_table : option nd_array }.
(** 63-67. *)
Definition lb_start : bstate := {| bs_calls := 0; bs_table := None |}.
(** put_double_array_nd refuses a name that is there. *)
Definition nd_put (entry : option nd_array) (t : nd_array) : option nd_array * res unit :=
  match entry with Some _ => (entry, Err "BlockNameAlreadyExists"%string) | None => (Some t, Ok tt) end.
(** bnl_interface.py 81-120, and bnl_interface_class.py 59-90: [fresh] is the computation of 90-112
    and of 68-82.  [entry] is the block's (bnl, beta_interp). *)
Definition lb_call (fresh : list R -> dblock -> res nd_array) (c : bconfig) (s : bstate) (b : dblock) (entry : option nd_array)
  : bstate * (option nd_array * res unit) :=
  match lb_wave (bc_nk c) b with
  | Err e => (s, (entry, Err e))
  | Ok kv =>
      if bc_bnl c then
        if (bc_update c =? 0)%Z then (s, (entry, Err "ZeroDivisionError"%string))
        else if (bs_calls s mod bc_update c =? 0)%Z then
          match fresh kv b with
          | Err e => (s, (entry, Err e))
          | Ok t => ({| bs_calls := bs_calls s + 1; bs_table := Some t |}, nd_put entry t)
          end
        else match bs_table s with
          | None => ({| bs_calls := bs_calls s + 1; bs_table := None |}, (entry, Err "TypeError"%string))
          | Some t => ({| bs_calls := bs_calls s + 1; bs_table := Some t |}, nd_put entry t)
          end
      else (s, nd_put entry (NdOne 0))
  end.
(** A chain of calls, each with its own block. *)
Fixpoint lb_chain (fresh : list R -> dblock -> res nd_array) (c : bconfig) (s : bstate) (l : list (dblock * option nd_array))
  : bstate * list (option nd_array * res unit) :=
  match l with
  | [] => (s, [])
  | (b, entry) :: l => let r := lb_call fresh c s b entry in let q := lb_chain fresh c (fst r) l in (fst q, snd r :: snd q)
  end.

(** The Dark Emulator: halo-halo power and linear power for a cosmology and a redshift, Omega0 of a
    cosmology, sigma8 of a cosmology. *)
Record emulation := { em_phh : list R -> R -> R -> R -> R -> R; em_plin : list R -> R -> R -> R; em_Om : list R -> R; em_sigma8 : list R -> R;
  em_quadratic : list R -> list R -> res (R -> R); em_fit : list R -> list R -> res R }.

Definition cosmology : string := "cosmological_parameters".
(** bnl_interface.py 90-97. *)
Definition lb_vector (b : dblock) : res (list R) :=
  ob <- block_num b cosmology "ombh2" ;; oc <- block_num b cosmology "omch2" ;; ol <- block_num b cosmology "omega_lambda" ;;
  A <- block_num b cosmology "A_s" ;; ns <- block_num b cosmology "n_s" ;; w <- block_num b cosmology "w" ;;
  test_cosmo [ob; oc; ol; ln (A * 10 ^ 10); ns; w].
(** bnl_interface.py 99-112. *)
Definition lb_fresh (E : emulation) (mass kv : list R) (b : dblock) : res nd_array :=
  v <- lb_vector b ;;
  f <- lb_interpolation (em_phh E v) (em_plin E v) (em_quadratic E) (em_fit E) (em_Om E v) ;;
  let n := List.length mass in
  Ok (NdFour 1 n n (List.length kv) (fun _ i j k => lb_table f mass kv i j k)).
Definition lb_execute (E : emulation) (c : bconfig) := lb_call (lb_fresh E (bc_mass c)) c.

(** bnl_interface_class.py 68-80: the arguments of NonLinearBias; sigma_8 has its default (bnl.py 62). *)
Definition lbc_cosmology (b : dblock) : res cosmo_in :=
  h <- block_num b cosmology "h0" ;; A <- block_num b cosmology "A_s" ;; ob <- block_num b cosmology "omega_b" ;; oc <- block_num b cosmology "omega_c" ;;
  om <- block_num b cosmology "omega_m" ;; ns <- block_num b cosmology "n_s" ;; w <- block_num b cosmology "w" ;;
  Ok {| b_h0 := h; b_sigma8 := Some (8 / 10); b_As := Some A; b_ob := ob; b_oc := oc; b_ol := 1 - om; b_ns := ns; b_w0 := w |}.
(** bnl_interface_class.py 68-82: the last cosmology set is the one in force. *)
Definition lbc_vector (E : emulation) (b : dblock) : res (list R) :=
  ci <- lbc_cosmology b ;; vs <- emulator (em_sigma8 E) ci ;; Ok (last vs []).
Definition lbc_fresh (E : emulation) (mass kv : list R) (b : dblock) : res nd_array :=
  v <- lbc_vector E b ;;
  ts <- bnl (build_interp (em_phh E v) (em_plin E v) (em_quadratic E) (em_Om E v)) false [] mass kv ;;
  let n := List.length mass in
  Ok (NdFour (List.length ts) (List.length kv) n n (fun z k i j => nth z ts (fun _ _ _ => 0) k i j)).
Definition lbc_execute (E : emulation) (c : bconfig) := lb_call (lbc_fresh E (bc_mass c)) c.

(** ** bnl_interface_delete.py *)
(** 11-17; [sampler] is options['runtime', 'sampler']. *)
Definition lbd_setup (missing wrong : string) (o : options) (sampler : res string) : res bool :=
  s <- sampler ;; keep <- get_bool missing wrong o "keep_bnl" (Some false) ;; Ok (negb (String.eqb s "test") && negb keep)%bool.
(** 27-28. *)
Definition lbd_execute (delete : bool) (entry : option nd_array) : option nd_array :=
  match entry with Some t => if delete then Some (NdOne 0) else Some t | None => None end.

(** ** What pk_interface.py 182-191 makes of the entry *)
(** The array has four axes, which must fit (redshifts, masses, masses, wavenumbers); one redshift
    serves for all.  None: the product with the other arrays fails. *)
Definition lb_handed (nz nm nk : nat) (entry : option nd_array) : option beta :=
  match entry with
  | None => Some BetaMissing
  | Some (NdOne _) => Some BetaDeleted
  | Some (NdFour a b c d f) =>
      if ((Nat.eqb a 1 || Nat.eqb a nz) && (Nat.eqb b nm && (Nat.eqb c nm && Nat.eqb d nk)))%bool
      then Some (BetaArray (fun j m1 m2 k => f (if Nat.eqb a 1 then 0%nat else j) m1 m2 k)) else None
  end.
