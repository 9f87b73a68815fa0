(** Model of cosmosis_modules/legacy/pk/pk_interface.py with pk_lib.py: setup, execute and every
    spectrum.  Definitions only.
    Truncations, smoothing and baryon fractions (pk_lib.py 438-517 and 547-591) have the bodies of
    their namesakes in src/onepower/pk.py and are those of PkModel.
    Simplified: the three- and four-dimensional arrays (ukm, uksat, beta_interp) are arguments beside
    the block and have the shapes of the axes; dewiggle (951-997) is an argument; shapes that do not
    fit are refused when a table is read, where numpy refuses them at their first use or broadcasts an
    axis of length one; interpolation has two nodes at least, and they increase; names of the block are
    compared with their case; warnings and messages are left out.  Not called: interpolate2d_HM,
    get_satellite_alignment_new, Im_term_v2, 761-904 (the emulator) and, of 1281-1313, all but
    compute_p_mI_two_halo and compute_p_II_two_halo.  The order in which the reads of one stage fail is
    left out: nothing is written in between. *)
From Coq Require Import ZArith.
From Verif Require Import Base Quad Interp FftModel HodModel PkModel PipeModel OptModel Spec ChainModel PredModel MiniModel IaModel AupModel LiaModel LhModel LrModel.
Open Scope R_scope.

(** ** setup, pk_interface.py 65-152 *)
Inductive mead := Feedback | NoFeedback | FitFeedback.
Record kconfig := { kc_mm : bool; kc_gg : bool; kc_gm : bool; kc_gI : bool; kc_mI : bool; kc_II : bool; kc_response : bool; kc_fortuna : bool; kc_bnl : bool;
  kc_k1 : option R; kc_k2 : option R; kc_k1_ia : option R; kc_k2_ia : option R; kc_hod : string; kc_mead : option mead; kc_dewiggle : bool; kc_pm : bool;
  kc_poisson : string; kc_pop : string }.
(** 127-129. *)
Definition kc_matter (c : kconfig) : bool := (kc_mm c || kc_gm c || kc_mI c)%bool.
Definition kc_align (c : kconfig) : bool := (kc_gI c || kc_mI c || kc_II c)%bool.
Definition kc_galaxy (c : kconfig) : bool := (kc_gg c || kc_gm c || kc_align c)%bool.
(** 134-148. *)
Definition mead_of (s : string) : option mead :=
  if String.eqb s "mead2020" then Some NoFeedback else if String.eqb s "mead2020_feedback" then Some Feedback else if String.eqb s "fit_feedback" then Some FitFeedback else None.
Section LkSetup.
  Variables missing wrong : string.
  Variable o : options.
  (** 65-87  get_string_or_none: a string other than None leaves the parameter unassigned. *)
  Definition lk_or_none (n : string) (d : R) : res (option R) :=
    match o n with
    | None => Ok (Some d)
    | Some (OInt z) => Ok (Some (IZR z))
    | Some (ODbl x) => Ok (Some x)
    | Some (OBool _) => Err wrong
    | Some (OStr s) => if String.eqb s "None" then Ok None else Err "UnboundLocalError"
    | Some (OArr _) => Err "UnboundLocalError"
    end.
  Definition lk_flag (n : string) : res bool := get_bool missing wrong o n (Some false).
  (** 89-152. *)
  Definition lk_setup : res kconfig :=
    mm <- lk_flag "p_mm" ;; gg <- lk_flag "p_gg" ;; gm <- lk_flag "p_gm" ;; gI <- lk_flag "p_gI" ;; mI <- lk_flag "p_mI" ;; II <- lk_flag "p_II" ;;
    response <- lk_flag "response" ;; fortuna <- lk_flag "fortuna" ;; bnl <- lk_flag "bnl" ;;
    poisson <- get_string missing wrong o "poisson_type" (Some ""%string) ;; pm <- lk_flag "point_mass" ;; dew <- lk_flag "dewiggle" ;;
    k1i <- lk_or_none "one_halo_ktrunc_ia" 4 ;; k2i <- lk_or_none "two_halo_ktrunc_ia" 6 ;;
    k1 <- lk_or_none "one_halo_ktrunc" (1 / 10) ;; k2 <- lk_or_none "two_halo_ktrunc" 2 ;;
    hod <- get_string missing wrong o "hod_section_name" None ;;
    pop <- get_string missing wrong o "output_suffix" (Some ""%string) ;;
    use <- get_string missing wrong o "use_mead2020_corrections" (Some "None"%string) ;;
    Ok {| kc_mm := mm; kc_gg := gg; kc_gm := gm; kc_gI := gI; kc_mI := mI; kc_II := II; kc_response := response; kc_fortuna := fortuna; kc_bnl := bnl;
          kc_k1 := k1; kc_k2 := k2; kc_k1_ia := k1i; kc_k2_ia := k2i; kc_hod := hod; kc_mead := mead_of use; kc_dewiggle := dew; kc_pm := pm;
          kc_poisson := poisson; kc_pop := suffix_of (lower pop) |}.
End LkSetup.

(** ** pk_lib.py *)
(** What execute computes from, by redshift, wavenumber and mass.  growth_factor and mean_density0 are constant along
    their other axes. *)
Record lk := { x_nz : nat; x_nk : nat; x_nm : nat; x_z : A1; x_k : A1; x_mass : A1; x_dn : A2; x_b : A2; x_udm : A3; x_usat : A3; x_plin : A2; x_growth : A1;
  x_rho : R; x_fnu : R; x_oc : R; x_om : R; x_ob : R; x_sigma8 : A1; x_neff : A1; x_beta : nat -> nat -> nat -> nat -> R }.
(** 1-halo, 2-halo and total. *)
Record three := { l_1h : A2; l_2h : A2; l_tot : A2 }.
(** What a bin needs. *)
Record ia := { ia_gi : A1; ia_wkm : A3; ia_cen : option (R * R); ia_sat : option (R * R) }.
Record bin := { bi_Nc : A2; bi_Ns : A2; bi_nc : A1; bi_ns : A1; bi_fc : A1; bi_fs : A1; bi_avg : A1; bi_star : A2; bi_W : A3; bi_po : A1; bi_ia : ia }.
Section Lib.
  Variable x : lk.
  (** 275-297. *)
  Definition W_m (fnu : R) : A3 := fun z k m => x_mass x m / x_rho x * x_udm x z k m * (1 - fnu).
  (** 299-336. *)
  Definition W_feedback (logT : R) : A3 := fun z k m =>
    let fst := fs logT (x_z x z) in let W0 := x_mass x m / x_rho x in
    (x_oc x / x_om x + fg (x_ob x) (x_om x) logT (x_mass x m) (x_z x z) fst) * W0 * x_udm x z k m * (1 - x_fnu x) + fst * W0.
  (** 338-367. *)
  Definition W_obs (mb : R) (fstar : A2) : A3 := fun z k m =>
    let W0 := x_mass x m / x_rho x in
    (x_oc x / x_om x + fg_fit (x_ob x) (x_om x) (x_mass x m) mb (fstar z m)) * W0 * x_udm x z k m * (1 - x_fnu x) + fstar z m * W0.
  (** 375-376. *)
  Definition W_gal (N : A2) (n f : A1) (u : A3) : A3 := fun z k m => f z * N z m * u z k m / n z.
  (** 382-434; the amplitudes 906-923. *)
  Definition scaled (p : option (R * R)) (avg : A1) (z : nat) : R := match p with Some (beta, mpivot) => fpow (avg z / mpivot) beta | None => 1 end.
  Definition W_cen_ia (h : bin) : A3 := fun z k m =>
    bi_fc h z * (5 / 100000000000000 * ia_gi (bi_ia h) z / x_growth x z) * x_mass x m * scaled (ia_cen (bi_ia h)) (bi_avg h) z.
  Definition W_sat_ia (h : bin) : A3 := fun z k m =>
    bi_fs h z * bi_Ns h z m * ia_wkm (bi_ia h) z m k / bi_ns h z * scaled (ia_sat (bi_ia h)) (bi_avg h) z.
  Definition amp_gi (h : bin) (z : nat) : R := - ia_gi (bi_ia h) z * (5 / 100000000000000 * x_rho x / x_growth x z).
  Definition amp_ii (h : bin) (z : nat) : R := (ia_gi (bi_ia h) z * (5 / 100000000000000) * x_rho x / x_growth x z) ^ 2.
  (** 520-543. *)
  Definition lk_1h (u v : A3) : A2 := fun z k => simpson (x_nm x) (fun m => u z k m * v z k m * x_dn x z m / x_mass x m) (x_mass x).
  (** 615-648. *)
  Definition lk_A (z : nat) : R := 1 - simpson (x_nm x) (fun m => x_b x z m * x_dn x z m * (1 / x_rho x)) (x_mass x).
  Definition lk_Im : A2 := fun z k => simpson (x_nm x) (fun m => x_b x z m * x_dn x z m * x_udm x z k m * (1 / x_rho x)) (x_mass x) + lk_A z.
  (** 655-674. *)
  Definition lk_Ig (W : A3) : A2 := fun z k => simpson (x_nm x) (fun m => W z k m * x_b x z m * x_dn x z m / x_mass x m) (x_mass x).
  Definition lk_Ia (W : A3) : A2 := fun z k => lk_Ig W z k + lk_A z * W z k 0%nat * x_rho x / x_mass x 0%nat.
  (** 676-758; beta by redshift, mass, mass and wavenumber. *)
  Definition lk_INL (W1 W2 : A3) : A2 := fun z k =>
    let B := fun m1 m2 => x_beta x z m1 m2 k in let n := (x_nm x - 1)%nat in let M := x_mass x in let A := lk_A z in let rho := x_rho x in
    let I22 := trapezoid n (fun m2 => trapezoid n (fun m1 => B m1 m2 * x_b x z m1 * x_b x z m2 * x_dn x z m1 * x_dn x z m2 / (M m1 * M m2) * W1 z k m1 * W2 z k m2) M) M in
    let I11 := B 0%nat 0%nat * (A * A * W1 z k 0%nat * W2 z k 0%nat * (rho * rho)) / (M 0%nat * M 0%nat) in
    let I12 := A * W1 z k 0%nat * trapezoid n (fun m => B m 0%nat * x_b x z m * x_dn x z m / M m * W2 z k m) M * rho / M 0%nat in
    let I21 := A * W2 z k 0%nat * trapezoid n (fun m => B 0%nat m * x_b x z m * x_dn x z m / M m * W1 z k m) M * rho / M 0%nat in
    I11 + I12 + I21 + I22.

  Variable c : kconfig.
  Definition tr1 (k : nat) : R := trunc1 (kc_k1 c) (x_k x k).
  Definition tr2 (k : nat) : R := trunc2 (kc_k2 c) (x_k x k).
  Definition tr1i (k : nat) : R := trunc1_ia (kc_k1_ia c) (x_k x k).
  Definition tr2i (k : nat) : R := trunc2_ia (kc_k2_ia c) (x_k x k).
  (** 1003-1035, chosen in pk_interface.py 232-249. *)
  Definition lk_mm (Wmm : A3) : three :=
    let one := lk_1h Wmm Wmm in
    let sum := fun p1 p2 : A2 => {| l_1h := p1; l_2h := p2; l_tot := fun z k => p1 z k + p2 z k |} in
    if kc_bnl c then sum (fun z k => one z k * tr1 k) (fun z k => x_plin x z k * lk_Im z k * lk_Im z k + x_plin x z k * lk_INL (W_m 0) (W_m 0) z k)
    else match kc_mead c with
    | Some Feedback | Some NoFeedback =>
        let p1 := fun z k => one z k * trunc1_mead (x_sigma8 x z) (x_k x k) in let p2 := fun z k => x_plin x z k * trunc2_mead (x_sigma8 x z) (x_k x k) in
        {| l_1h := p1; l_2h := p2; l_tot := fun z k => transition (x_neff x z) (x_k x k) (p1 z k) (p2 z k) |}
    | _ => sum (fun z k => one z k * tr1 k) (fun z k => x_plin x z k * lk_Im z k * lk_Im z k * tr2 k)
    end.

  Variable h : bin.
  (** pk_interface.py 281-288: the profile of the centrals is one. *)
  Definition W_c : A3 := W_gal (bi_Nc h) (bi_nc h) (bi_fc h) (fun _ _ _ => 1).
  Definition W_s : A3 := W_gal (bi_Ns h) (bi_ns h) (bi_fs h) (x_usat x).
  Definition W_g : A3 := fun z k m => W_c z k m + W_s z k m.
  Definition W_ia : A3 := fun z k m => W_cen_ia h z k m + W_sat_ia h z k m.
  Definition I_c : A2 := lk_Ig W_c.
  Definition I_s : A2 := lk_Ig W_s.
  Definition I_ca : A2 := lk_Ia (W_cen_ia h).
  Definition I_sa : A2 := lk_Ia (W_sat_ia h).
  (** 1038-1088. *)
  Definition lk_gg : three :=
    let tr := fun k => if kc_bnl c then 1 else tr2 k in let P := x_plin x in
    let cc := fun z k => P z k * I_c z k * I_c z k * tr k in let ss := fun z k => P z k * I_s z k * I_s z k * tr k in let cs := fun z k => P z k * I_c z k * I_s z k * tr k in
    let p1 := fun z k => 2 * (lk_1h W_c W_s z k * tr1 k) + lk_1h (fun z k m => W_s z k m * bi_po h m) W_s z k * tr1 k in
    let p2 := fun z k => cc z k + ss z k + 2 * cs z k + (if kc_bnl c then P z k * lk_INL W_g W_g z k else 0) in
    {| l_1h := p1; l_2h := p2; l_tot := fun z k => p1 z k + p2 z k |}.
  Definition lk_bias_gg : A2 := fun z k => sqrt (I_c z k * I_c z k + I_s z k * I_s z k + 2 * I_s z k * I_c z k).
  (** 1091-1129. *)
  Definition lk_gm : three :=
    let tr := fun k => if kc_bnl c then 1 else tr2 k in let P := x_plin x in
    let p1 := fun z k => lk_1h W_c (bi_W h) z k * tr1 k + lk_1h W_s (bi_W h) z k * tr1 k in
    let p2 := fun z k => P z k * I_c z k * lk_Im z k * tr k + P z k * I_s z k * lk_Im z k * tr k + (if kc_bnl c then P z k * lk_INL W_g (W_m 0) z k else 0) in
    {| l_1h := p1; l_2h := p2; l_tot := fun z k => p1 z k + p2 z k |}.
  Definition lk_bias_gm : A2 := fun z k => sqrt (I_c z k * lk_Im z k + I_s z k * lk_Im z k).

  Variable pe : A2.
  (** 1144-1183 and 1297-1300. *)
  Definition lk_mI : three :=
    let P := x_plin x in
    let sm1 := fun z k => -1 * lk_1h (bi_W h) (W_sat_ia h) z k * tr1i k in
    if kc_fortuna c then
      let cm := fun z k => bi_fc h z * pe z k * amp_gi h z * tr2i k in {| l_1h := sm1; l_2h := cm; l_tot := fun z k => sm1 z k + cm z k |}
    else
      let tr := fun k => if kc_bnl c then 1 else tr2i k in
      let sm := fun z k => -1 * P z k * lk_Im z k * I_sa z k * tr k in let cm := fun z k => -1 * P z k * lk_Im z k * I_ca z k * tr k in
      {| l_1h := sm1; l_2h := fun z k => cm z k + sm z k; l_tot := fun z k => sm1 z k + cm z k + sm z k - (if kc_bnl c then P z k * lk_INL W_ia (W_m 0) z k else 0) |}.
  (** 1186-1229 and 1311-1313. *)
  Definition lk_II : three :=
    let P := x_plin x in
    let ss1 := fun z k => lk_1h (W_sat_ia h) (W_sat_ia h) z k * tr1i k in
    if kc_fortuna c then
      let cc := fun z k => bi_fc h z ^ 2 * pe z k * amp_ii h z * tr2i k in {| l_1h := ss1; l_2h := cc; l_tot := fun z k => ss1 z k + cc z k |}
    else
      let tr := fun k => if kc_bnl c then 1 else tr2i k in let nl := fun W V z k => if kc_bnl c then P z k * lk_INL W V z k else 0 in
      let ss := fun z k => P z k * I_sa z k * I_sa z k * tr k + nl (W_sat_ia h) (W_sat_ia h) z k in
      let cc := fun z k => P z k * I_ca z k * I_ca z k * tr k + nl (W_cen_ia h) (W_cen_ia h) z k in
      let cs := fun z k => P z k * I_ca z k * I_sa z k * tr k + nl (W_cen_ia h) (W_sat_ia h) z k in
      {| l_1h := ss1; l_2h := fun z k => cc z k + cs z k + cs z k; l_tot := fun z k => ss1 z k + cc z k + ss z k + cs z k |}.
  (** 1232-1272. *)
  Definition lk_gI : three :=
    let P := x_plin x in
    let cs1 := fun z k => lk_1h W_c (W_sat_ia h) z k * tr1i k in
    if kc_fortuna c then
      let cc := fun z k => -1 * pe z k * I_c z k * amp_gi h z * tr2i k in {| l_1h := cs1; l_2h := cc; l_tot := fun z k => cs1 z k + cc z k |}
    else
      let tr := fun k => if kc_bnl c then 1 else tr2i k in let nl := fun W z k => if kc_bnl c then P z k * lk_INL W W_c z k else 0 in
      let cc := fun z k => P z k * I_c z k * I_ca z k * tr k + nl (W_cen_ia h) z k in let cs := fun z k => P z k * I_c z k * I_sa z k * tr k + nl (W_sat_ia h) z k in
      {| l_1h := cs1; l_2h := fun z k => cc z k + cs z k; l_tot := fun z k => cs1 z k + cs z k + cc z k |}.
End Lib.

(** ** execute, pk_interface.py 154-493 *)
(** The arrays of more than two dimensions: fourier_nfw_profile, ukm and uksat; bnl, beta_interp, which bnl_interface_delete.py
    replaces by [0.]. *)
Inductive beta := BetaMissing | BetaDeleted | BetaArray (B : nat -> nat -> nat -> nat -> R).
Record arrays := { nd_udm : A3; nd_usat : A3; nd_beta : beta }.
Definition same_list (l l' : list R) : bool := if list_eq_dec Req_EM_T l l' then true else false.
(** An array of [n] numbers; a table of [n] rows of [m]. *)
Definition sized (b : dblock) (s n : string) (k : nat) : res (list R) :=
  l <- array b s n ;; if Nat.eqb (List.length l) k then Ok l else Err "ValueError".
Definition sized_table (b : dblock) (s n : string) (k m : nat) : res (list (list R)) :=
  t <- table_at b s n ;; if (Nat.eqb (List.length t) k && forallb (fun r => Nat.eqb (List.length r) m) t)%bool then Ok t else Err "ValueError".
(** pk_lib.py 72-78  interp1d(_, _)(z): out of bounds is a ValueError; at least two nodes. *)
Definition within (x q : list R) : bool :=
  forallb (fun v => if Rlt_dec v (hd 0 x) then false else if Rlt_dec (last x 0) v then false else true) q.
Definition strict_nodes (x q : list R) : res unit := if (Nat.leb 2 (List.length x) && within x q)%bool then Ok tt else Err "ValueError".
(** 80-120  a power spectrum at the redshifts and wavenumbers of the profiles. *)
Definition lk_power (b : dblock) (s : string) (zq : list R) (kq : A1) : res A2 :=
  k <- array b s "k_h" ;; z <- array b s "z" ;; t <- sized_table b s "p_k" (List.length z) (List.length k) ;;
  u <- strict_nodes z zq ;; u <- (if Nat.leb 2 (List.length k) then Ok tt else Err "ValueError") ;;
  Ok (fun j i => exp (interp_lin (List.length k) (fun a => ln (ChainModel.at_ k a))
                       (fun a => ln (interp_lin (List.length z) (ChainModel.at_ z) (fun e => entry t e a) (ChainModel.at_ zq j))) (ln (kq i)))).
Definition cosmology : string := "cosmological_parameters".
(** pk_interface.py 65-87 on the block, without a default. *)
Definition block_or_none (b : dblock) (s n : string) : res (option R) :=
  match b s n with
  | None => Ok None
  | Some (BInt z) => Ok (Some (IZR z))
  | Some (BDbl v) => Ok (Some v)
  | Some (BStr v) => if String.eqb v "None" then Ok None else Err "UnboundLocalError"
  | Some _ => Err "UnboundLocalError"
  end.
(** pk_lib.py 926-948, pk_interface.py 350-355: the key 'poisson' is always there, so that its default is not used. *)
Definition lk_poisson (type : string) (b : dblock) (mass : list R) : res A1 :=
  p <- block_or_none b "pk_parameters" "poisson" ;; m0 <- block_or_none b "pk_parameters" "M_0" ;; slope <- block_or_none b "pk_parameters" "slope" ;;
  if String.eqb type "scalar" then match p with Some v => Ok (fun m => v * 1) | None => Err "TypeError" end
  else if String.eqb type "power_law" then
    match m0, slope with
    | Some M0, Some s => match p with Some v => Ok (fun m => v * fpow (ChainModel.at_ mass m / pow10 M0) s) | None => Err "TypeError" end
    | _, _ => Err "ValueError"
    end
  else Ok (fun _ => 1).

Section LkExecute.
  Variable over : bool.
  (** pk_lib.py 993-998. *)
  Variable dewiggle : dblock -> list R -> A2 -> res A2.
  Variable nd : arrays.
  Variable c : kconfig.
  Definition meads : bool := match kc_mead c with Some Feedback | Some NoFeedback => true | _ => false end.
  Definition matters : bool := (kc_matter c && (kc_mm c || kc_response c))%bool.
  (** 157-208, 241-242; the axes beside what is computed from. *)
  Definition lk_read (b : dblock) : res (list R * list R * list R * lk * A2) :=
    mass <- array b "hmf" "m_h" ;; z <- array b "hmf" "z" ;; dn <- sized_table b "hmf" "dndlnmh" (List.length z) (List.length mass) ;;
    mb <- array b "halobias" "m_h" ;; zb <- array b "halobias" "z" ;; hb <- sized_table b "halobias" "b_hb" (List.length z) (List.length mass) ;;
    zu <- array b "fourier_nfw_profile" "z" ;; mu <- array b "fourier_nfw_profile" "m_h" ;; k <- array b "fourier_nfw_profile" "k_h" ;;
    u <- (if same_list mu mass then Ok tt else Err "ValueError") ;;
    raw <- lk_power b "matter_power_lin" z (ChainModel.at_ k) ;;
    zg <- array b "growth_parameters" "z" ;; d <- sized b "growth_parameters" "d_z" (List.length zg) ;; u <- strict_nodes zg z ;;
    nl <- (if kc_response c then lk_power b "matter_power_nl" z (ChainModel.at_ k) else Ok (fun _ _ => 0)) ;;
    plin <- (if (meads || kc_dewiggle c)%bool then dewiggle b k raw else Ok raw) ;;
    B <- (if kc_bnl c then match nd_beta nd with BetaMissing => Err "Exception" | BetaDeleted => Err "ValueError" | BetaArray B => Ok B end else Ok (fun _ _ _ _ => 0)) ;;
    rho <- block_num b "density" "mean_density0" ;; fnu <- block_num b cosmology "fnu" ;;
    oc <- block_num b cosmology "omega_c" ;; om <- block_num b cosmology "omega_m" ;; ob <- block_num b cosmology "omega_b" ;;
    s8 <- (if (matters && negb (kc_bnl c) && meads)%bool then sized b "hmf" "sigma8_z" (List.length z) else Ok []) ;;
    neff <- (if (matters && negb (kc_bnl c) && meads)%bool then sized b "hmf" "neff" (List.length z) else Ok []) ;;
    Ok (z, k, mass, {| x_nz := List.length z; x_nk := List.length k; x_nm := List.length mass; x_z := ChainModel.at_ z; x_k := ChainModel.at_ k; x_mass := ChainModel.at_ mass;
          x_dn := entry dn; x_b := entry hb; x_udm := nd_udm nd; x_usat := nd_usat nd; x_plin := plin;
          x_growth := fun j => interp_lin (List.length zg) (ChainModel.at_ zg) (ChainModel.at_ d) (ChainModel.at_ z j);
          x_rho := rho; x_fnu := fnu; x_oc := oc; x_om := om; x_ob := ob; x_sigma8 := ChainModel.at_ s8; x_neff := ChainModel.at_ neff; x_beta := B |}, nl).
  (** pk_lib.py 593-606: linear in mass and redshift, also outside the table. *)
  Definition lk_fstar_mm (b : dblock) (x : lk) : res A2 :=
    if has_value b (kc_hod c) "f_star_extended" then
      m <- array b (kc_hod c) "mass_extended" ;; z <- array b (kc_hod c) "z_extended" ;; t <- table_at b (kc_hod c) "f_star_extended" ;;
      if fits z m t then Ok (fun j i => bilinear (List.length m) (ChainModel.at_ m) (List.length z) (ChainModel.at_ z) (fun a e => entry t e a) (x_mass x i) (x_z x j))
      else Err "ValueError"
    else Err "ValueError".
  (** 211-227: the matter profile of the one-halo term; unassigned without matter. *)
  Definition lk_profile (b : dblock) (x : lk) : res (option A3) :=
    if kc_matter c then
      match kc_mead c with
      | Some Feedback => t <- block_num b "halo_model_parameters" "logT_AGN" ;; Ok (Some (W_feedback x t))
      | Some FitFeedback => f <- lk_fstar_mm b x ;; mb <- block_num b "halo_model_parameters" "m_b" ;; Ok (Some (W_obs x (pow10 mb) f))
      | _ => Ok (Some (W_m x (x_fnu x)))
      end
    else Ok None.
  Definition grid_put (s n : string) (z k : list R) (x : lk) (t : A2) : lput := Grid s "z" z "k_h" k n (grid2 (x_nz x) (x_nk x) t).
  Definition three_puts (s : string) (z k : list R) (x : lk) (t : three) : list lput :=
    [grid_put s "p_k_1h" z k x (l_1h t); grid_put s "p_k_2h" z k x (l_2h t); grid_put s "p_k" z k x (l_tot t)].
  (** 232-260. *)
  Definition mm_puts (z k : list R) (x : lk) (W : option A3) : list lput :=
    match W with
    | Some W => if matters then three_puts (if kc_response c then "matter_power_hm" else "matter_power_nl")%string z k x (lk_mm x c W) else []
    | None => []
    end.
  (** pk_lib.py 201-252. *)
  Definition lk_hods (b : dblock) (suffix : string) (z mass : list R) : res (A2 * A2 * A1 * A1 * A1 * A1 * A1 * A2) :=
    let at_name (n : string) := (n ++ suffix)%string in let s := kc_hod c in
    m <- array b s (at_name "mass") ;; zh <- array b s (at_name "z") ;;
    let n := List.length zh in
    Nc <- sized_table b s (at_name "n_cen") n (List.length m) ;; Ns <- sized_table b s (at_name "n_sat") n (List.length m) ;;
    nc <- sized b s (at_name "number_density_cen") n ;; ns <- sized b s (at_name "number_density_sat") n ;;
    fc <- sized b s (at_name "central_fraction") n ;; fs <- sized b s (at_name "satellite_fraction") n ;; avg <- sized b s (at_name "average_halo_mass") n ;;
    u <- (if same_list m mass then Ok tt else Err "ValueError") ;;
    star <- (match table_at b s (at_name "f_star") with Ok _ => sized_table b s (at_name "f_star") n (List.length m) | Err _ => Ok (grid2 n (List.length m) (fun _ _ => 0)) end) ;;
    u <- (if Nat.leb 2 n then Ok tt else Err "ValueError") ;;
    let to_z f v := fun j => interp1d f n (ChainModel.at_ zh) v (ChainModel.at_ z j) in
    let to_z2 t := fun j i => to_z Extrapolate (fun e => entry t e i) j in
    Ok (to_z2 Nc, to_z2 Ns, to_z Extrapolate (ChainModel.at_ nc), to_z Extrapolate (ChainModel.at_ ns), to_z (FillValue 0) (ChainModel.at_ fc), to_z (FillValue 0) (ChainModel.at_ fs),
        to_z (FillValue 0) (ChainModel.at_ avg), to_z2 star).
  Definition small : string := ("ia_small_scale_alignment" ++ kc_pop c)%string.
  Definition large : string := ("ia_large_scale_alignment" ++ kc_pop c)%string.
  Definition by_mass (b : dblock) (s beta : string) : res (option (R * R)) :=
    match b s "instance"%string with
    | None => Err "BlockNameNotFound"
    | Some (BStr v) => if String.eqb v "halo_mass" then e <- block_num b s beta ;; p <- block_num b s "M_pivot" ;; Ok (Some (e, p)) else Ok None
    | Some _ => Ok None
    end.
  (** 305-323. *)
  Definition lk_ia (b : dblock) (z k mass : list R) : res ia :=
    if kc_align c then
      gi <- sized b large "alignment_gi" (List.length z) ;;
      w <- get_satellite_alignment b k mass (List.length z) (kc_pop c) ;;
      sat <- by_mass b small "beta_sat" ;; cen <- by_mass b large "beta" ;;
      Ok {| ia_gi := ChainModel.at_ gi; ia_wkm := fun j m i => entry (nth j w []) m i; ia_cen := cen; ia_sat := sat |}
    else Ok {| ia_gi := fun _ => 0; ia_wkm := fun _ _ _ => 0; ia_cen := None; ia_sat := None |}.
  (** 270-355: what a bin reads before it writes.  The copy of an unassigned profile is an UnboundLocalError. *)
  Definition bin_read (n : Z) (nb : nat) (z k mass : list R) (x : lk) (W : option A3) (b : dblock) : res bin :=
    t <- lk_hods b (bin_suffix n nb) z mass ;;
    let '(Nc, Ns, nc, ns, fc, fs, avg, star) := t in
    W1 <- (if (match kc_mead c with Some FitFeedback => true | _ => kc_pm c end)%bool then mb <- block_num b "halo_model_parameters" "m_b" ;; Ok (W_obs x (pow10 mb) star)
           else match W with Some W => Ok W | None => Err "UnboundLocalError" end) ;;
    a <- lk_ia b z k mass ;;
    po <- (if kc_gg c then lk_poisson (kc_poisson c) b mass else Ok (fun _ => 1)) ;;
    Ok {| bi_Nc := Nc; bi_Ns := Ns; bi_nc := nc; bi_ns := ns; bi_fc := fc; bi_fs := fs; bi_avg := avg; bi_star := star; bi_W := W1; bi_po := po; bi_ia := a |}.
  (** A spectrum, as a response: times the input over the halo model.  [W] is None if pk_mm is unassigned. *)
  Definition answered (x : lk) (W : option A3) (nl : A2) (t : three) : res three :=
    if kc_response c then
      match W with
      | Some W => let r := fun p z k => p z k / l_tot (lk_mm x c W) z k * nl z k in Ok {| l_1h := r (l_1h t); l_2h := r (l_2h t); l_tot := r (l_tot t) |}
      | None => Err "UnboundLocalError"
      end
    else Ok t.
  Definition answer_puts (on : bool) (before : list lput) (s : string) (z k : list R) (x : lk) (W : option A3) (nl : A2) (t : three) : list lput * res unit :=
    if on then match answered x W nl t with Ok t => ((before ++ three_puts s z k x t)%list, Ok tt) | Err e => (before, Err e) end else ([], Ok tt).
  (** A list of puts, possibly cut short by an exception. *)
  Definition plan := (list lput * res unit)%type.
  Definition and_then (p q : plan) : plan := match snd p with Ok _ => ((fst p ++ fst q)%list, snd q) | Err e => (fst p, Err e) end.
  Definition carry_out (p : plan) (b : dblock) : dblock * res unit := then_ (do_puts over (fst p) b) (fun b => (b, snd p)).
  (** 348-407. *)
  Definition bin_first (sfx : string) (z k : list R) (x : lk) (W : option A3) (nl : A2) (h : bin) : plan :=
    and_then (answer_puts (kc_gg c) [grid_put ("galaxy_linear_bias" ++ sfx) "bg_linear" z k x (lk_bias_gg x h)] ("galaxy_power" ++ sfx) z k x W nl (lk_gg x c h))
             (answer_puts (kc_gm c) [grid_put ("galaxy_matter_linear_bias" ++ sfx) "bgm_linear" z k x (lk_bias_gm x h)] ("matter_galaxy_power" ++ sfx) z k x W nl (lk_gm x c h)).
  (** 409-420. *)
  Definition lk_effective (b : dblock) (z : list R) (x : lk) : res A2 :=
    if kc_fortuna c then
      p <- lk_power b "matter_power_nl" z (x_k x) ;;
      t <- (match b "pk_parameters"%string "linear_fraction_fortuna"%string with None => Ok 0 | Some _ => block_num b "pk_parameters" "linear_fraction_fortuna" end) ;;
      Ok (fun j i => (1 - t) * p j i + t * x_plin x j i)
    else Ok (fun _ _ => 0).
  (** 422-491. *)
  Definition bin_second (sfx : string) (z k : list R) (x : lk) (W : option A3) (nl : A2) (h : bin) (pe : A2) : plan :=
    and_then (answer_puts (kc_II c) [] ("intrinsic_power" ++ sfx) z k x W nl (lk_II x c h pe))
    (and_then (answer_puts (kc_gI c) [] ("galaxy_intrinsic_power" ++ sfx) z k x W nl (lk_gI x c h pe))
              (answer_puts (kc_mI c) [] ("matter_intrinsic_power" ++ sfx) z k x W nl (lk_mI x c h pe))).
  Definition lk_bin (n : Z) (z k mass : list R) (x : lk) (W : option A3) (nl : A2) (nb : nat) (b : dblock) : dblock * res unit :=
    let sfx := (kc_pop c ++ bin_suffix n nb)%string in
    match bin_read n nb z k mass x W b with
    | Err e => (b, Err e)
    | Ok h => then_ (carry_out (bin_first sfx z k x W nl h) b) (fun b =>
        match lk_effective b z x with Ok pe => carry_out (bin_second sfx z k x W nl h pe) b | Err e => (b, Err e) end)
    end.
  (** 154-493. *)
  Definition lk_execute (b : dblock) : dblock * res unit :=
    match lk_read b with
    | Err e => (b, Err e)
    | Ok (z, k, mass, x, nl) =>
        match lk_profile b x with
        | Err e => (b, Err e)
        | Ok W => then_ (do_puts over (mm_puts z k x W) b) (fun b =>
            if kc_galaxy c then
              match int_at b (kc_hod c) "nbins" with
              | Err e => (b, Err e)
              | Ok n => in_turn (map (lk_bin n z k mass x W nl) (seq 0 (Z.to_nat n))) b
              end
            else (b, Ok tt))
        end
    end.
End LkExecute.
