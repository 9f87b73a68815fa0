(** Properties of src/onepower/ia.py: C43-C47, C63-C65. *)
From Coq Require Import ZArith.
From Coquelicot Require Import Coquelicot.
From Verif Require Import Base Quad Interp Spec BaseFacts InterpFacts IaModel IaSpec AngFacts3 IaFacts IaFacts2 IaFacts3.
Open Scope string_scope.
Open Scope R_scope.

(** * C43 *)

(** ell_max is accepted exactly up to 11; the multipoles are the even numbers 0..ell_max,
    in order. *)
Theorem C43_multipoles :
  forall L : Z,
    (ell_max_set L = Ok L <-> (L <= 11)%Z) /\ (ell_max_set L = Err "ValueError" <-> (11 < L)%Z) /\
    (forall l, In l (ell_values L) <-> Nat.Even l /\ (Z.of_nat l <= L)%Z) /\
    (forall i l, nth_error (ell_values L) i = Some l -> l = (2 * i)%nat).
Proof. exact multipoles. Qed.
Print Assumptions C43_multipoles.

(** Every coefficient of every multipole used is found, for all angles and slopes. *)
Theorem C43_lookups_in_bounds :
  forall (G : R -> R) theta phi b L l, ell_max_set L = Ok L -> In l (ell_values L) ->
    exists v, calculate_f_ell G theta phi l b = Ok v.
Proof. exact lookups. Qed.
Print Assumptions C43_lookups_in_bounds.

(** So the transform never fails, and is the modulus of the alternating multipole sum. *)
Theorem C43_transform :
  forall (G : R -> R) b L u, ell_max_set L = Ok L ->
    exists f, (forall i, In (2 * i)%nat (ell_values L) -> f_ell G (PI / 2) (2 * i) b = Ok (f i)) /\
      wkm_f_ell G b L (List.length (ell_values L)) u
      = Ok (Rabs (sumR (List.length (ell_values L)) (fun i => (-1) ^ i * (4 * INR i + 1) * u i * f i))).
Proof. exact wkm_formula. Qed.
Print Assumptions C43_transform.

(** The limit is needed: multipole 12 is outside the table. *)
Theorem C43_limit_needed :
  forall (G : R -> R) theta b, theta <> PI / 2 -> f_ell G theta 12 b = Err "IndexError".
Proof. exact lookup_12. Qed.
Print Assumptions C43_limit_needed.

Example C43_case :
  ell_max_set 6 = Ok 6%Z /\ ell_values 6 = [0; 2; 4; 6]%nat /\ ell_values 11 = [0; 2; 4; 6; 8; 10]%nat /\
  ell_values (-1) = [] /\ ell_max_set 12 = Err "ValueError".
Proof. repeat split. Qed.

(** * C44 *)

(** The passed-through and rejected cases, for quantities of either dimension. *)
Theorem C44_pass_or_reject :
  forall (A : Type) (differ : A -> A -> bool) size nmass q,
    (downsample differ false size nmass q = Ok q) /\
    (downsample differ true nmass nmass q = Ok q) /\
    ((size < nmass)%nat -> downsample differ true size nmass q = Err "ValueError").
Proof. exact @down_reject. Qed.
Print Assumptions C44_pass_or_reject.

(** Any one-dimensional quantity: first and last value kept, order kept, at least nmass
    values. *)
Theorem C44_end_points :
  forall size nmass q, (1 <= nmass <= size)%nat -> List.length q = size ->
    exists d, downsample1 true size nmass q = Ok d /\ (nmass <= List.length d)%nat /\
      hd 0 d = hd 0 q /\ last d 0 = last q 0 /\ (size = nmass -> d = q) /\
      (forall i j, (i < j < List.length d)%nat -> exists a b, (a < b < size)%nat /\
         nth i d 0 = nth a q 0 /\ nth j d 0 = nth b q 0).
Proof. exact downsample_1d. Qed.
Print Assumptions C44_end_points.

(** Masses without repetition, and tables whose columns differ from the last one at every
    redshift, are all sampled at the same indices. *)
Theorem C44_same_indices :
  forall size nmass, (1 <= nmass < size)%nat ->
    exists idx, hd 0%nat idx = 0%nat /\ last idx 0%nat = (size - 1)%nat /\ (nmass <= List.length idx)%nat /\
      (forall i j x y, (i < j)%nat -> nth_error idx i = Some x -> nth_error idx j = Some y -> (x < y < size)%nat) /\
      (forall q, List.length q = size -> NoDup q ->
         downsample1 true size nmass q = Ok (map (fun i => nth i q 0) idx)) /\
      (forall cols, List.length cols = size ->
         (forall i, (i < size - 1)%nat -> all_differ (nth i cols []) (nth (size - 1) cols []) = true) ->
         nth (size - 1) cols [] <> [] ->
         downsample2 true size nmass cols = Ok (map (fun i => nth i cols []) idx)).
Proof. exact same_indices. Qed.
Print Assumptions C44_same_indices.

(** Ties break both: a constant quantity gets fewer points than the masses, and a table
    tied at a single redshift loses its last column at all of them. *)
Theorem C44_ties_refuted :
  downsample1 true 6 3 [1; 2; 3; 4; 5; 6] = Ok [1; 3; 5; 6] /\
  downsample1 true 6 3 [7; 7; 7; 7; 7; 7] = Ok [7; 7; 7] /\
  downsample2 true 6 3 [[1; 1]; [2; 2]; [3; 3]; [4; 4]; [5; 6]; [6; 6]] = Ok [[1; 1]; [3; 3]; [5; 6]].
Proof. exact (conj (proj1 ties_differ_in_length) (conj (proj2 ties_differ_in_length) tie_loses_last)). Qed.
Print Assumptions C44_ties_refuted.

(** Five masses and two redshifts meet the hypotheses. *)
Example C44_case :
  NoDup [1; 2; 3; 4; 5] /\
  (forall i, (i < 4)%nat -> all_differ (nth i [[9; 8]; [7; 6]; [5; 4]; [3; 2]; [1; 0]] [])
                              (nth 4 [[9; 8]; [7; 6]; [5; 4]; [3; 2]; [1; 0]] []) = true) /\
  downsample1 true 5 2 [1; 2; 3; 4; 5] = Ok [1; 3; 5].
Proof.
  assert (N : forall a b, a <> b -> neqR a b = true)
    by (intros a b H; unfold neqR; destruct (Req_EM_T a b); congruence).
  split; [|split].
  - repeat constructor; simpl; intuition lra.
  - intros i Hi. do 4 (destruct i as [|i]; [cbn; rewrite !N by lra; reflexivity|]). lia.
  - unfold downsample1, downsample, slice_step. cbn. unfold neqR. destruct (Req_EM_T 5 5); [reflexivity|lra].
Qed.

(** * C45 *)

(** The two-slope scaling: the amplitude at the pivot, continuous, positive, a power law of
    slope beta above the pivot and of slope beta_low below. *)
Theorem C45_broken_power_law :
  forall g l0 b bl, 0 < l0 ->
    alignment_ampl g l0 b bl l0 = g /\
    (forall l, 0 < l -> continuous (alignment_ampl g l0 b bl) l) /\
    (0 < g -> forall l, 0 < l -> 0 < alignment_ampl g l0 b bl l) /\
    (forall x y, 0 < x -> 0 < y ->
      (l0 < x /\ l0 < y -> alignment_ampl g l0 b bl y = alignment_ampl g l0 b bl x * fpow (y / x) b) /\
      (x <= l0 /\ y <= l0 -> alignment_ampl g l0 b bl y = alignment_ampl g l0 b bl x * fpow (y / x) bl)).
Proof.
  exact (fun g l0 b bl H => conj (ampl_pivot g l0 b bl H) (conj (fun l => ampl_cont g l0 b bl l H)
    (conj (fun Hg l => ampl_pos g l0 b bl l Hg H) (fun x y => ampl_slope g l0 b bl x y H)))).
Qed.
Print Assumptions C45_broken_power_law.

(** Averaged over any luminosity distribution: with equal slopes the amplitude times the
    single power-law mean, otherwise the sum of the two one-sided means. *)
Theorem C45_averages :
  forall nl xlum p g l0 b bl, (1 <= nl)%nat ->
    broken_powerlaw nl xlum p g l0 b b = g * mean_l_l0_to_beta nl xlum p l0 b /\
    broken_powerlaw nl xlum p g l0 b bl =
      g * (mean_l_l0_to_beta nl xlum (fun i => if Rlt_dec l0 (xlum i) then p i else 0) l0 b
         + mean_l_l0_to_beta nl xlum (fun i => if Rlt_dec l0 (xlum i) then 0 else p i) l0 bl).
Proof. exact (fun nl xlum p g l0 b bl H => conj (broken_same nl xlum p g l0 b H) (broken_split nl xlum p g l0 b bl H)). Qed.
Print Assumptions C45_averages.

(** The mean is the integral of the weighted power law whenever that is a parabola. *)
Theorem C45_mean_is_integral :
  forall nl xlum p l0 b f, (3 <= nl)%nat -> increasing nl xlum -> is_parabola f ->
    (forall i, (i < nl)%nat -> p i * fpow (xlum i / l0) b = f (xlum i)) ->
    mean_l_l0_to_beta nl xlum p l0 b = RInt f (xlum 0%nat) (xlum (nl - 1)%nat).
Proof. exact mean_integral. Qed.
Print Assumptions C45_mean_is_integral.

(** A uniform distribution and a linear scaling. *)
Example C45_case :
  alignment_ampl 3 2 1 (-1) 4 = 6 /\ alignment_ampl 3 2 1 (-1) 1 = 6 /\
  is_parabola (fun t => t / 2) /\ (forall i : nat, 1 * fpow (INR i / 2) 1 = INR i / 2).
Proof.
  unfold alignment_ampl. destruct (Rlt_dec 2 4); [|lra]. destruct (Rlt_dec 2 1); [lra|].
  replace (4 / 2) with 2 by lra. rewrite fpow_1 by lra. repeat split.
  - ring.
  - rewrite fpow_pos by lra. replace (-1) with (- (1)) by ring. rewrite Rpower_Ropp, Rpower_1 by lra. lra.
  - exists 0, (1 / 2), 0. intro t. field.
  - intro i. rewrite fpow_1; [ring|]. pose proof (pos_INR i). lra.
Qed.

(** * C46 *)

(** Central amplitude, every dependence and every combination of given options. *)
Theorem C46_central :
  forall a : amplitudes,
    (am_central a = "constant" -> exists f, alignment_gi a = Ok (Some f) /\ forall i, f i = am_gamma2h a) /\
    (am_central a = "halo_mass" ->
      match am_mpivot_cen a, am_beta_two a with
      | Some _, None => exists f, alignment_gi a = Ok (Some f) /\ forall i, f i = am_gamma2h a
      | _, _ => alignment_gi a = Err "ValueError"
      end) /\
    (am_central a = "luminosity" ->
      match am_lpivot_cen a, am_file_cen a with
      | Some lp, Some gal =>
          if Nat.leb (am_nz a) 1 then alignment_gi a = Err "IndexError"
          else exists f, alignment_gi a = Ok (Some f) /\ forall i,
            let x := fst (lum_table (am_nz a) (am_z a) nlbins gal) i in
            let p := snd (lum_table (am_nz a) (am_z a) nlbins gal) i in
            f i = match am_beta_two a with
                  | None => am_gamma2h a * mean_l_l0_to_beta nlbins x p (pow10 lp) (am_beta_cen a)
                  | Some b2 => broken_powerlaw nlbins x p (am_gamma2h a) (pow10 lp) (am_beta_cen a) b2
                  end
      | _, _ => alignment_gi a = Err "ValueError"
      end).
Proof. exact (fun a => conj (gi_constant a) (conj (gi_mass a) (gi_luminosity a))). Qed.
Print Assumptions C46_central.

(** Satellite amplitude. *)
Theorem C46_satellite :
  forall a : amplitudes,
    (am_satellite a = "constant" -> exists f, gamma_1h_amp a = Ok (Some f) /\ forall i, f i = am_gamma1h a) /\
    (am_satellite a = "halo_mass" ->
      match am_mpivot_sat a with
      | Some _ => exists f, gamma_1h_amp a = Ok (Some f) /\ forall i, f i = am_gamma1h a
      | None => gamma_1h_amp a = Err "ValueError"
      end) /\
    (am_satellite a = "luminosity" ->
      match am_lpivot_sat a, am_file_sat a with
      | Some lp, Some gal =>
          if Nat.leb (am_nz a) 1 then gamma_1h_amp a = Err "IndexError"
          else exists f, gamma_1h_amp a = Ok (Some f) /\ forall i,
            let x := fst (lum_table (am_nz a) (am_z a) nlbins gal) i in
            let p := snd (lum_table (am_nz a) (am_z a) nlbins gal) i in
            f i = am_gamma1h a * mean_l_l0_to_beta nlbins x p (pow10 lp) (am_beta_sat a)
      | _, _ => gamma_1h_amp a = Err "ValueError"
      end).
Proof. exact (fun a => conj (sat_constant a) (conj (sat_mass a) (sat_luminosity a))). Qed.
Print Assumptions C46_satellite.

(** A non-negative strength never changes sign, whatever the galaxy sample. *)
Theorem C46_sign :
  forall a f i, 0 <= am_gamma2h a -> alignment_gi a = Ok (Some f) -> 0 <= f i.
Proof. exact gi_nonneg. Qed.
Print Assumptions C46_sign.

Definition ex_amp (dep : string) (lp mp b2 : option R) (file : option (list (R * R))) : amplitudes :=
  {| am_nz := 2; am_z := INR; am_central := dep; am_satellite := dep; am_gamma2h := 5; am_gamma1h := 1 / 100;
     am_beta_cen := 1; am_beta_two := b2; am_beta_sat := 2; am_mpivot_cen := mp; am_mpivot_sat := mp;
     am_lpivot_cen := lp; am_lpivot_sat := lp; am_file_cen := file; am_file_sat := file |}.
Example C46_case :
  (exists f, alignment_gi (ex_amp "luminosity" (Some 10) None None (Some [(0, 10); (1, 11)])) = Ok (Some f)) /\
  alignment_gi (ex_amp "luminosity" None None None (Some [(0, 10); (1, 11)])) = Err "ValueError" /\
  alignment_gi (ex_amp "luminosity" (Some 10) None None None) = Err "ValueError" /\
  (exists f, alignment_gi (ex_amp "halo_mass" None (Some 13) None None) = Ok (Some f) /\ f 0%nat = 5) /\
  alignment_gi (ex_amp "halo_mass" None (Some 13) (Some 1) None) = Err "ValueError".
Proof.
  split; [|split; [|split; [|split]]].
  - destruct (gi_luminosity (ex_amp "luminosity" (Some 10) None None (Some [(0, 10); (1, 11)])) eq_refl) as (f & H & _).
    now exists f.
  - exact (gi_luminosity (ex_amp "luminosity" None None None (Some [(0, 10); (1, 11)])) eq_refl).
  - exact (gi_luminosity (ex_amp "luminosity" (Some 10) None None None) eq_refl).
  - destruct (gi_mass (ex_amp "halo_mass" None (Some 13) None None) eq_refl) as (f & H & V).
    exists f. split; [exact H|]. rewrite V. reflexivity.
  - exact (gi_mass (ex_amp "halo_mass" None (Some 13) (Some 1) None) eq_refl).
Qed.

(** * C47 *)

(** The shear profile: capped at 0.3, constant inside the core, the power law where that is
    below the cap, falling with radius for negative slopes. *)
Theorem C47_shear_profile :
  forall rvir a b rc r,
    gamma_r r rvir a b rc <= 3 / 10 /\
    (r < rc -> gamma_r r rvir a b rc = gamma_r rc rvir a b rc) /\
    (rc <= r -> a * fpow (r / rvir) b <= 3 / 10 -> gamma_r r rvir a b rc = a * fpow (r / rvir) b) /\
    (rc <= r -> 3 / 10 <= a * fpow (r / rvir) b -> gamma_r r rvir a b rc = 3 / 10) /\
    (0 <= a -> 0 <= gamma_r r rvir a b rc) /\
    (0 <= a -> b <= 0 -> 0 < rvir -> 0 < rc -> forall r', r <= r' -> gamma_r r' rvir a b rc <= gamma_r r rvir a b rc).
Proof.
  exact (fun rvir a b rc r => conj (gamma_cap r rvir a b rc) (conj (gamma_core r rvir a b rc)
    (conj (shear_value r rvir a b rc) (conj (shear_capped r rvir a b rc) (conj (gamma_nonneg r rvir a b rc)
      (fun Ha Hb Hv Hc r' Hr => gamma_decreasing r r' rvir a b rc Ha Hb Hv Hc Hr)))))).
Qed.
Print Assumptions C47_shear_profile.

(** The product with the NFW density: zero from the virial radius on when truncated,
    untouched below it, between 0 and 0.3 times the density. *)
Theorem C47_truncation :
  forall rs rvir a b rc r,
    (rvir <= r -> gamma_r_nfw_profile r rs rvir a b rc true = 0) /\
    (r < rvir -> gamma_r_nfw_profile r rs rvir a b rc true = gamma_r_nfw_profile r rs rvir a b rc false) /\
    gamma_r_nfw_profile r rs rvir a b rc false = gamma_r r rvir a b rc * (1 / (r / rs * (1 + r / rs) ^ 2)) /\
    (forall t, 0 < r -> 0 < rs -> 0 <= a ->
       0 <= gamma_r_nfw_profile r rs rvir a b rc t <= 3 / 10 * (1 / (r / rs * (1 + r / rs) ^ 2))).
Proof.
  exact (fun rs rvir a b rc r => conj (profile_truncated r rs rvir a b rc) (conj (profile_same r rs rvir a b rc)
    (conj (profile r rs rvir a b rc false) (fun t => profile_bounds r rs rvir a b rc t)))).
Qed.
Print Assumptions C47_truncation.

(** The normalisation is the mass of the NFW density inside c scale radii, and positive. *)
Theorem C47_mass_normalisation :
  forall rs c, 0 < rs -> 0 < c ->
    is_RInt (fun r => 4 * PI * r ^ 2 * (1 / (r / rs * (1 + r / rs) ^ 2))) 0 (c * rs) (mnfw rs c) /\ 0 < mnfw rs c.
Proof. exact (fun rs c H1 H2 => conj (mnfw_mass rs c H1 H2) (mnfw_pos rs c H1 H2)). Qed.
Print Assumptions C47_mass_normalisation.

(** The power-law branch and the capped branch both occur for amplitude 1 % and slope -2. *)
Example C47_case :
  gamma_r 1 1 (1 / 100) (-2) rcore_default = 1 / 100 /\ gamma_r (1 / 100) 1 (1 / 100) (-2) rcore_default = 3 / 10.
Proof.
  assert (P : forall x, 0 < x -> fpow x (-2) = / (x * x)).
  { intros x H. rewrite fpow_pos by exact H. replace (-2) with (- INR 2) by (simpl; lra).
    rewrite Rpower_Ropp, Rpower_pow by exact H. f_equal. simpl. ring. }
  unfold gamma_r, rcore_default. destruct (Rlt_dec 1 (6 / 100)); [lra|].
  destruct (Rlt_dec (1 / 100) (6 / 100)); [|lra]. rewrite !P by lra. split.
  - rewrite Rmin_left by lra. field.
  - rewrite Rmin_right; [reflexivity|]. lra.
Qed.

(** * C63 *)

(** The general formula gives the angular integral over the sphere, for every direction,
    every multipole below 12 and every even slope. *)
Theorem C63_general_formula :
  forall (G : R -> R) theta l p, gamma_function G -> (l < 12)%nat ->
    f_ell_general G theta l (2 * INR p - 2) = Ok (angular_integral theta l p).
Proof. exact coefficient_general. Qed.
Print Assumptions C63_general_formula.

(** The value used is that one, except at the fixed direction for the slopes -2 and 0; ... *)
Theorem C63_used :
  forall (G : R -> R) theta l p, gamma_function G -> (l < 12)%nat -> (theta = PI / 2 -> (2 <= p)%nat) ->
    f_ell G theta l (2 * INR p - 2) = Ok (angular_integral theta l p).
Proof. exact coefficient_used. Qed.
Print Assumptions C63_used.

(** ... the tabulated slope -2 agrees to 3e-6; ... *)
Theorem C63_slope_minus_2 :
  forall (G : R -> R) l, gamma_function G -> (l < 12)%nat ->
    exists v, f_ell G (PI / 2) l (-2) = Ok v /\ Rabs (v - angular_integral (PI / 2) l 0) <= 3 / 1000000.
Proof. exact coefficient_m2. Qed.
Print Assumptions C63_slope_minus_2.

(** ... the tabulated slope 0 is off by more than 0.04 at every multipole from 2 to 10: it
    is the table for slope 1. *)
Theorem C63_slope_0_refuted :
  forall (G : R -> R) i, gamma_function G -> (1 <= i <= 5)%nat ->
    exists v, f_ell G (PI / 2) (2 * i) 0 = Ok v /\
      4 / 100 < Rabs (v - angular_integral (PI / 2) (2 * i) 1) /\
      exists w, f_ell G (PI / 2) (2 * i) 1 = Ok w /\ Rabs (v - w) <= 2 / 1000000.
Proof. exact coefficient_0. Qed.
Print Assumptions C63_slope_0_refuted.

(** The hypotheses on the gamma function are satisfiable. *)
Example C63_case : gamma_function gam /\ legendre 2 (1 / 2) = - (1 / 8) /\ 2 * INR 2 - 2 = 2.
Proof. split; [exact gam_gamma|]. split; [unfold legendre; simpl; lra|simpl; lra]. Qed.

(** * C64 *)

(** Redshift bins: every galaxy between the outer edges is in exactly one. *)
Theorem C64_redshift_bins :
  forall nz z (g : R * R), (2 <= nz)%nat -> increasing nz z ->
    z 0%nat - 1 / 2 * (z 1%nat - z 0%nat) <= fst g < z (nz - 1)%nat + 1 / 2 * (z 1%nat - z 0%nat) ->
    exists i, (i < nz)%nat /\ in_zbin nz z i g = true /\ forall j, (j < nz)%nat -> in_zbin nz z j g = true -> j = i.
Proof. exact z_one. Qed.
Print Assumptions C64_redshift_bins.

(** Luminosity bins: every luminosity of the sample is in exactly one, whatever the sample. *)
Theorem C64_luminosity_bins :
  forall n x l t, (1 <= n)%nat -> In t (x :: l) ->
    exists i, (i < n)%nat /\ in_bin n (hist_edge n x (x :: l)) i t = true /\
      forall j, (j < n)%nat -> in_bin n (hist_edge n x (x :: l)) j t = true -> j = i.
Proof. exact hist_one. Qed.
Print Assumptions C64_luminosity_bins.

(** The tabulated distribution is non-negative and integrates to one over the bins; the
    tabulated luminosities are the bin centres; an empty redshift bin has a zero mean. *)
Theorem C64_distribution :
  forall nz z nl gal i, (1 <= nl)%nat ->
    match lum_in_bin nz z gal i with
    | [] => forall l0 b, 0 <= b -> mean_l_l0_to_beta nl (fst (lum_table nz z nl gal) i) (snd (lum_table nz z nl gal) i) l0 b = 0
    | x :: l =>
        sumR nl (fun j => snd (lum_table nz z nl gal) i j *
                          (hist_edge nl x (x :: l) (j + 1) - hist_edge nl x (x :: l) j)) = 1 /\
        forall j, (j < nl)%nat ->
          0 <= snd (lum_table nz z nl gal) i j /\
          fst (lum_table nz z nl gal) i j = (hist_edge nl x (x :: l) j + hist_edge nl x (x :: l) (j + 1)) / 2 /\
          hist_edge nl x (x :: l) j < fst (lum_table nz z nl gal) i j < hist_edge nl x (x :: l) (j + 1)
    end.
Proof. exact lum_distribution. Qed.
Print Assumptions C64_distribution.

(** Three luminosities in two bins: one and two of them (the upper edge included). *)
Example C64_case :
  hist_count 2 0 [0; 3; 4] 0 = 1%nat /\ hist_count 2 0 [0; 3; 4] 1 = 2%nat /\
  in_zbin 2 INR 0 (1 / 10, 5) = true.
Proof.
  assert (R : hist_range 0 [0; 3; 4] = (0, 4)).
  { unfold hist_range, list_min, list_max. simpl.
    rewrite (Rmin_left 0 0), (Rmin_left 0 3), (Rmin_left 0 4), (Rmax_left 0 0), (Rmax_right 0 3), (Rmax_right 3 4) by lra.
    destruct (Req_EM_T 0 4); [lra|reflexivity]. }
  assert (E : forall i, (i <= 2)%nat -> hist_edge 2 0 [0; 3; 4] i = 2 * INR i).
  { intros i Hi. rewrite edge_at by lia. rewrite R. simpl. lra. }
  unfold hist_count, count_if, in_bin. simpl. rewrite !E by lia. simpl.
  repeat match goal with
  | |- context [Rle_dec ?a ?b] => destruct (Rle_dec a b); try lra
  | |- context [Rlt_dec ?a ?b] => destruct (Rlt_dec a b); try lra
  | |- context [Req_EM_T ?a ?b] => destruct (Req_EM_T a b); try lra
  end.
  repeat split. unfold in_zbin, z_edge. simpl.
  destruct (Rle_dec (0 - 1 / 2 * (1 - 0)) (1 / 10)); [|lra].
  destruct (Rlt_dec (1 / 10) (1 - 1 / 2 * (1 - 0))); [reflexivity|lra].
Qed.

(** * C65 *)

(** hankel: the upsampled transform is positive everywhere, reproduces the computed values,
    and is exact (also beyond the grid) for products of powers. *)
Theorem C65_hankel :
  forall nm mass nk kv, (2 <= nm)%nat -> (2 <= nk)%nat -> increasing nm mass -> increasing nk kv ->
    (forall i, (i < nm)%nat -> 0 < mass i) -> (forall i, (i < nk)%nat -> 0 < kv i) ->
    forall w : A2,
      (forall k m, 0 < k -> 0 < upsampled_hankel nm mass nk kv w k m) /\
      (forall i j, (i < nk)%nat -> (j < nm)%nat -> 0 < w j i ->
         upsampled_hankel nm mass nk kv w (kv i) (mass j) = w j i) /\
      (forall c a b k m, 0 < c -> 0 < k -> 0 < m ->
         (forall i j, (i < nk)%nat -> (j < nm)%nat -> w j i = c * Rpower (kv i) a * Rpower (mass j) b) ->
         upsampled_hankel nm mass nk kv w k m = c * Rpower k a * Rpower m b) /\
      (forall lo hi k m, kv 0%nat <= k <= kv (nk - 1)%nat -> mass 0%nat <= m <= mass (nm - 1)%nat -> 0 < lo ->
         (forall i j, (i < nk)%nat -> (j < nm)%nat -> lo <= w j i / kv i ^ 2 <= hi) ->
         lo * k ^ 2 <= upsampled_hankel nm mass nk kv w k m <= hi * k ^ 2).
Proof.
  exact (fun nm mass nk kv H1 H2 I1 I2 P1 P2 w =>
    conj (up_pos nm mass nk kv w) (conj (up_node nm mass nk kv H1 H2 I1 I2 P1 P2 w)
      (conj (up_power nm mass nk kv H1 H2 I1 I2 P1 P2 w) (up_hull nm mass nk kv H1 H2 I1 I2 P1 P2 w)))).
Qed.
Print Assumptions C65_hankel.

(** fftlog: reproduces the computed values, stays in their range inside the grid, ... *)
Theorem C65_fftlog :
  forall nk kv (w : A2) m, (2 <= nk)%nat -> increasing nk kv ->
    (forall i, (i < nk)%nat -> upsampled_fftlog nk kv w (kv i) m = w m i) /\
    (forall lo hi k, kv 0%nat <= k -> k <= kv (nk - 1)%nat ->
       (forall i, (i < nk)%nat -> lo <= w m i <= hi) -> lo <= upsampled_fftlog nk kv w k m <= hi).
Proof.
  exact (fun nk kv w m H I => conj (fun i => interp_node nk kv (w m) i H I)
    (fun lo hi k A B => interp_bounds nk kv (w m) k lo hi H I A B)).
Qed.
Print Assumptions C65_fftlog.

(** ... but beyond it the linear extrapolation can turn the (non-negative) transform negative. *)
Theorem C65_fftlog_extrapolation_refuted :
  exists nk kv (w : A2) k, (2 <= nk)%nat /\ increasing nk kv /\ (forall i j, 0 <= w i j) /\ 0 < k /\
    upsampled_fftlog nk kv w k 0 < 0.
Proof. exact fftlog_negative. Qed.
Print Assumptions C65_fftlog_extrapolation_refuted.

(** The wavenumber grid: from 1/1000 to 1000, increasing, of 100 points for fftlog. *)
Theorem C65_grid : forall fftlog nk, (2 <= ia_nk fftlog nk)%nat ->
  ia_nk true nk = 100%nat /\ ia_nk false nk = nk /\
  ia_k_vec fftlog nk 0%nat = 1 / 1000 /\ ia_k_vec fftlog nk (ia_nk fftlog nk - 1)%nat = 1000 /\
  increasing (ia_nk fftlog nk) (ia_k_vec fftlog nk) /\
  forall i, (i + 2 < ia_nk fftlog nk)%nat ->
    ia_k_vec fftlog nk (i + 1)%nat / ia_k_vec fftlog nk i = ia_k_vec fftlog nk (i + 2)%nat / ia_k_vec fftlog nk (i + 1)%nat.
Proof. exact ia_grid. Qed.
Print Assumptions C65_grid.

(** The grids of the code meet the hypotheses. *)
Example C65_case :
  (2 <= ia_nk true 1000)%nat /\ increasing 100 (ia_k_vec true 1000) /\ forall i, 0 < ia_k_vec true 1000 i.
Proof.
  split; [simpl; lia|]. split; [|intro i; apply pow10_pos].
  unfold ia_k_vec, ia_nk. apply logspace_incr; [lia|]. apply log10_lt; lra.
Qed.
