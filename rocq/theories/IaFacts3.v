(** Proofs about ia.py in the form of the property statements. *)
From Coq Require Import ZArith.
From Coquelicot Require Import Coquelicot.
From Verif Require Import Base Quad Interp Spec BaseFacts QuadFacts InterpFacts NumFacts
  IaModel IaSpec AngFacts AngFacts2 AngFacts3 IaFacts IaFacts2.
Open Scope string_scope.
Open Scope R_scope.

(** ** Coefficients *)
Lemma coefficient_general G theta l p : gamma_function G -> (l < 12)%nat ->
  f_ell_general G theta l (2 * INR p - 2) = Ok (angular_integral theta l p).
Proof. intros HG H. rewrite f_general_ok by exact H. now rewrite (f_sum_integral G HG). Qed.
Lemma coefficient_used G theta l p : gamma_function G -> (l < 12)%nat ->
  (theta = PI / 2 -> (2 <= p)%nat) ->
  f_ell G theta l (2 * INR p - 2) = Ok (angular_integral theta l p).
Proof.
  intros HG H Hp. unfold f_ell. rewrite (coefficient_general G theta l p HG H).
  destruct (Req_EM_T theta (PI / 2)) as [E|E]; [|reflexivity].
  specialize (Hp E). apply le_INR in Hp. simpl in Hp.
  destruct (Req_EM_T (2 * INR p - 2) 0); [lra|]. destruct (Req_EM_T (2 * INR p - 2) (-2)); [lra|]. reflexivity.
Qed.
Lemma coefficient_m2 G l : gamma_function G -> (l < 12)%nat ->
  exists v, f_ell G (PI / 2) l (-2) = Ok v /\ Rabs (v - angular_integral (PI / 2) l 0) <= 3 / 1000000.
Proof.
  intros HG H. exists (nth l pre_calc_m2 0). split.
  - unfold f_ell. destruct (Req_EM_T (PI / 2) (PI / 2)); [|congruence].
    destruct (Req_EM_T (-2) 0); [lra|]. destruct (Req_EM_T (-2) (-2)); [|lra].
    unfold at_. rewrite (nth_error_nth' _ 0) by (simpl; lia). reflexivity.
  - rewrite <- (f_sum_integral G HG) by exact H.
    replace (2 * INR 0 - 2) with (-2) by (simpl; ring). now apply table_m2.
Qed.
Lemma coefficient_0 G i : gamma_function G -> (1 <= i <= 5)%nat ->
  exists v, f_ell G (PI / 2) (2 * i) 0 = Ok v /\
    4 / 100 < Rabs (v - angular_integral (PI / 2) (2 * i) 1) /\
    exists w, f_ell G (PI / 2) (2 * i) 1 = Ok w /\ Rabs (v - w) <= 2 / 1000000.
Proof.
  intros HG H. exists (nth (2 * i) pre_calc_0 0). split; [|split].
  - unfold f_ell. destruct (Req_EM_T (PI / 2) (PI / 2)); [|congruence].
    destruct (Req_EM_T 0 0); [|lra].
    unfold at_. rewrite (nth_error_nth' _ 0) by (simpl; lia). reflexivity.
  - rewrite <- (f_sum_integral G HG) by lia.
    replace (2 * INR 1 - 2) with 0 by (simpl; ring). now apply table_0_wrong.
  - exists (f_sum G (PI / 2) (2 * i) 1). split.
    + unfold f_ell. destruct (Req_EM_T (PI / 2) (PI / 2)); [|congruence].
      destruct (Req_EM_T 1 0); [lra|]. destruct (Req_EM_T 1 (-2)); [lra|]. apply f_general_ok. lia.
    + apply table_0_slope_1; [exact HG|lia].
Qed.

(** ** Multipoles *)
Lemma multipoles L :
  (ell_max_set L = Ok L <-> (L <= 11)%Z) /\ (ell_max_set L = Err "ValueError" <-> (11 < L)%Z) /\
  (forall l, In l (ell_values L) <-> Nat.Even l /\ (Z.of_nat l <= L)%Z) /\
  (forall i l, nth_error (ell_values L) i = Some l -> l = (2 * i)%nat).
Proof.
  pose proof (ell_max_iff L) as [A B]. split; [exact A|]. split; [exact B|]. split; [apply ell_in|].
  intros i l H. rewrite ell_nth in H. destruct (Nat.ltb _ _); congruence.
Qed.
Lemma lookups G theta phi b L l : ell_max_set L = Ok L -> In l (ell_values L) ->
  exists v, calculate_f_ell G theta phi l b = Ok v.
Proof.
  intros H I. apply ell_max_iff in H. apply ell_in in I. apply f_calc_ok. lia.
Qed.
Lemma wkm_formula G b L u : ell_max_set L = Ok L ->
  exists f, (forall i, In (2 * i)%nat (ell_values L) -> f_ell G (PI / 2) (2 * i) b = Ok (f i)) /\
    wkm_f_ell G b L (List.length (ell_values L)) u
    = Ok (Rabs (sumR (List.length (ell_values L)) (fun i => (-1) ^ i * (4 * INR i + 1) * u i * f i))).
Proof. intro H. apply ell_max_iff in H. now apply wkm_value. Qed.
Lemma lookup_12 G theta b : theta <> PI / 2 -> f_ell G theta 12 b = Err "IndexError".
Proof.
  intro H. unfold f_ell. destruct (Req_EM_T theta (PI / 2)); [contradiction|]. apply f_general_err. lia.
Qed.

(** ** Downsampling *)
Lemma down_reject {A} (differ : A -> A -> bool) size nmass q :
  (downsample differ false size nmass q = Ok q) /\
  (downsample differ true nmass nmass q = Ok q) /\
  ((size < nmass)%nat -> downsample differ true size nmass q = Err "ValueError").
Proof.
  unfold downsample. cbn [negb]. rewrite Nat.eqb_refl. repeat split. intro H.
  destruct (Nat.eqb_spec size nmass); [lia|]. destruct (Nat.ltb_spec size nmass); [reflexivity|lia].
Qed.
Lemma no_repeat q i : NoDup q -> (i < List.length q - 1)%nat ->
  neqR (nth i q 0) (nth (List.length q - 1) q 0) = true.
Proof.
  intros N H. unfold neqR. destruct (Req_EM_T _ _) as [E|E]; [|reflexivity].
  exfalso. pose proof (proj1 (NoDup_nth q 0) N i (List.length q - 1)%nat ltac:(lia) ltac:(lia) E). lia.
Qed.
Lemma neqR_refl x : neqR x x = false.
Proof. unfold neqR. destruct (Req_EM_T x x); congruence. Qed.

(** One list of indices serves every quantity. *)
Lemma same_indices size nmass : (1 <= nmass < size)%nat ->
  exists idx, hd 0%nat idx = 0%nat /\ last idx 0%nat = (size - 1)%nat /\ (nmass <= List.length idx)%nat /\
    (forall i j x y, (i < j)%nat -> nth_error idx i = Some x -> nth_error idx j = Some y -> (x < y < size)%nat) /\
    (forall q, List.length q = size -> NoDup q ->
       downsample1 true size nmass q = Ok (map (fun i => nth i q 0) idx)) /\
    (forall cols, List.length cols = size ->
       (forall i, (i < size - 1)%nat -> all_differ (nth i cols []) (nth (size - 1) cols []) = true) ->
       nth (size - 1) cols [] <> [] ->
       downsample2 true size nmass cols = Ok (map (fun i => nth i cols []) idx)).
Proof.
  intro H. assert (F : (1 <= size / nmass)%nat) by (apply Nat.div_le_lower_bound; lia).
  exists (kept size (size / nmass) (appended size (size / nmass))). split; [|split; [|split; [|split; [|split]]]].
  - unfold kept. destruct size as [|s]; [lia|]. reflexivity.
  - apply kept_last; lia.
  - unfold kept. rewrite app_length.
    pose proof (slice_enough nat (seq 0 size) size nmass ltac:(lia) (seq_length _ _)). lia.
  - intros i j x y. apply kept_sorted; [exact F|reflexivity|lia].
  - intros q L N. apply kept_same; [lia|exact L| |apply neqR_refl].
    intros i Hi. rewrite <- L. apply no_repeat; [exact N|lia].
  - intros cols L D N. apply kept_same; [lia|exact L|exact D|]. now apply all_differ_refl.
Qed.

(** Constant or partly tied quantities break this. *)
Lemma ties_differ_in_length :
  downsample1 true 6 3 [1; 2; 3; 4; 5; 6] = Ok [1; 3; 5; 6] /\
  downsample1 true 6 3 [7; 7; 7; 7; 7; 7] = Ok [7; 7; 7].
Proof.
  unfold downsample1, downsample, slice_step. cbn. unfold neqR.
  destruct (Req_EM_T 5 6); [lra|]. destruct (Req_EM_T 7 7); [|lra]. split; reflexivity.
Qed.
Lemma tie_loses_last :
  downsample2 true 6 3 [[1; 1]; [2; 2]; [3; 3]; [4; 4]; [5; 6]; [6; 6]] = Ok [[1; 1]; [3; 3]; [5; 6]].
Proof.
  unfold downsample2, downsample, slice_step, all_differ. cbn. unfold neqR.
  destruct (Req_EM_T 5 6); [lra|]. destruct (Req_EM_T 6 6); [|lra]. reflexivity.
Qed.

(** ** Luminosity scaling *)
Lemma mean_integral nl xlum p l0 b f : (3 <= nl)%nat -> increasing nl xlum -> is_parabola f ->
  (forall i, (i < nl)%nat -> p i * fpow (xlum i / l0) b = f (xlum i)) ->
  mean_l_l0_to_beta nl xlum p l0 b = RInt f (xlum 0%nat) (xlum (nl - 1)%nat).
Proof.
  intros H I P E. unfold mean_l_l0_to_beta. rewrite <- (simpson_RInt nl f xlum H I P).
  apply simpson_ext; [lia|exact E|reflexivity].
Qed.
Lemma broken_split nl xlum p g l0 b bl : (1 <= nl)%nat ->
  broken_powerlaw nl xlum p g l0 b bl =
    g * (mean_l_l0_to_beta nl xlum (fun i => if Rlt_dec l0 (xlum i) then p i else 0) l0 b
       + mean_l_l0_to_beta nl xlum (fun i => if Rlt_dec l0 (xlum i) then 0 else p i) l0 bl).
Proof.
  intro H. unfold broken_powerlaw, mean_l_l0_to_beta. rewrite <- simpson_plus, <- simpson_scal.
  apply simpson_ext; [exact H| |reflexivity]. intros i _. unfold alignment_ampl.
  destruct (Rlt_dec l0 (xlum i)); ring.
Qed.

(** ** Amplitudes *)
Lemma gi_constant a : am_central a = "constant" ->
  exists f, alignment_gi a = Ok (Some f) /\ forall i, f i = am_gamma2h a.
Proof. intro H. unfold alignment_gi. rewrite H. cbn [String.eqb Ascii.eqb Bool.eqb]. eexists. split; [reflexivity|]. intro i. cbv beta. ring. Qed.
Lemma gi_mass a : am_central a = "halo_mass" ->
  match am_mpivot_cen a, am_beta_two a with
  | Some _, None => exists f, alignment_gi a = Ok (Some f) /\ forall i, f i = am_gamma2h a
  | _, _ => alignment_gi a = Err "ValueError"
  end.
Proof.
  intro H. unfold alignment_gi. rewrite H. cbn [String.eqb Ascii.eqb Bool.eqb]. destruct (am_mpivot_cen a); cbn [pivot option_map]; [|reflexivity].
  destruct (am_beta_two a); [reflexivity|]. eexists. split; [reflexivity|]. intro i. cbv beta. ring.
Qed.
Lemma gi_luminosity a : am_central a = "luminosity" ->
  match am_lpivot_cen a, am_file_cen a with
  | Some lp, Some gal =>
      if Nat.leb (am_nz a) 1 then alignment_gi a = Err "IndexError"
      else exists f, alignment_gi a = Ok (Some f) /\ forall i,
        let x := fst (lum_table (am_nz a) (am_z a) nlbins gal) i in
        let p := snd (lum_table (am_nz a) (am_z a) nlbins gal) i in
        f i = match am_beta_two a with
              | None => am_gamma2h a * mean_l_l0_to_beta nlbins x p (pow10 lp) (am_beta_cen a)
              | Some b2 => broken_powerlaw nlbins x p (am_gamma2h a) (pow10 lp) (am_beta_cen a) b2
              end
  | _, _ => alignment_gi a = Err "ValueError"
  end.
Proof.
  intro H. unfold alignment_gi. rewrite H. cbn [String.eqb Ascii.eqb Bool.eqb].
  destruct (am_lpivot_cen a) as [lp|]; cbn [pivot option_map]; [|reflexivity].
  unfold luminosity_array. destruct (am_file_cen a) as [gal|]; [|reflexivity].
  unfold compute_luminosity_pdf. destruct (Nat.leb (am_nz a) 1); [reflexivity|]. cbn [bind].
  destruct (lum_table (am_nz a) (am_z a) nlbins gal) as [lum pdf].
  destruct (am_beta_two a); eexists; split; reflexivity.
Qed.
Lemma sat_constant a : am_satellite a = "constant" ->
  exists f, gamma_1h_amp a = Ok (Some f) /\ forall i, f i = am_gamma1h a.
Proof. intro H. unfold gamma_1h_amp. rewrite H. cbn [String.eqb Ascii.eqb Bool.eqb]. eexists. split; [reflexivity|]. intro i. cbv beta. ring. Qed.
Lemma sat_mass a : am_satellite a = "halo_mass" ->
  match am_mpivot_sat a with
  | Some _ => exists f, gamma_1h_amp a = Ok (Some f) /\ forall i, f i = am_gamma1h a
  | None => gamma_1h_amp a = Err "ValueError"
  end.
Proof.
  intro H. unfold gamma_1h_amp. rewrite H. cbn [String.eqb Ascii.eqb Bool.eqb]. destruct (am_mpivot_sat a); cbn [pivot option_map]; [|reflexivity].
  eexists. split; [reflexivity|]. intro i. cbv beta. ring.
Qed.
Lemma sat_luminosity a : am_satellite a = "luminosity" ->
  match am_lpivot_sat a, am_file_sat a with
  | Some lp, Some gal =>
      if Nat.leb (am_nz a) 1 then gamma_1h_amp a = Err "IndexError"
      else exists f, gamma_1h_amp a = Ok (Some f) /\ forall i,
        let x := fst (lum_table (am_nz a) (am_z a) nlbins gal) i in
        let p := snd (lum_table (am_nz a) (am_z a) nlbins gal) i in
        f i = am_gamma1h a * mean_l_l0_to_beta nlbins x p (pow10 lp) (am_beta_sat a)
  | _, _ => gamma_1h_amp a = Err "ValueError"
  end.
Proof.
  intro H. unfold gamma_1h_amp. rewrite H. cbn [String.eqb Ascii.eqb Bool.eqb].
  destruct (am_lpivot_sat a) as [lp|]; cbn [pivot option_map]; [|reflexivity].
  unfold luminosity_array. destruct (am_file_sat a) as [gal|]; [|reflexivity].
  unfold compute_luminosity_pdf. destruct (Nat.leb (am_nz a) 1); [reflexivity|]. cbn [bind].
  destruct (lum_table (am_nz a) (am_z a) nlbins gal) as [lum pdf]. eexists; split; reflexivity.
Qed.
Lemma nlbins_pos : (1 <= nlbins)%nat.
Proof. unfold nlbins. lia. Qed.
Lemma gi_nonneg a f i : 0 <= am_gamma2h a -> alignment_gi a = Ok (Some f) -> 0 <= f i.
Proof.
  intros G H. destruct (String.eqb_spec (am_central a) "constant") as [E|E1].
  { destruct (gi_constant a E) as (g & K & V). rewrite K in H. injection H as <-. now rewrite V. }
  destruct (String.eqb_spec (am_central a) "luminosity") as [E|E2].
  { pose proof (gi_luminosity a E) as K. destruct (am_lpivot_cen a) as [lp|]; [|congruence].
    destruct (am_file_cen a) as [gal|]; [|congruence]. destruct (Nat.leb (am_nz a) 1); [congruence|].
    destruct K as (g & K & V). rewrite K in H. injection H as <-. rewrite V. cbv zeta.
    destruct (am_beta_two a).
    - apply broken_nonneg; [exact nlbins_pos|exact G].
    - apply Rmult_le_pos; [exact G|]. apply mean_nonneg, nlbins_pos. }
  destruct (String.eqb_spec (am_central a) "halo_mass") as [E|E3].
  { pose proof (gi_mass a E) as K. destruct (am_mpivot_cen a), (am_beta_two a); try congruence.
    destruct K as (g & K & V). rewrite K in H. injection H as <-. now rewrite V. }
  exfalso. unfold alignment_gi in H.
  apply String.eqb_neq in E1, E2, E3. rewrite E1, E2, E3 in H. discriminate.
Qed.

(** ** Radial profile *)
Lemma profile r rs rvir a b rc t : 
  gamma_r_nfw_profile r rs rvir a b rc t =
    gamma_r r rvir a b rc * (if t then (if Rle_dec rvir r then 0 else 1 / (r / rs * (1 + r / rs) ^ 2))
                             else 1 / (r / rs * (1 + r / rs) ^ 2)).
Proof. reflexivity. Qed.
Lemma shear_value r rvir a b rc : rc <= r -> a * fpow (r / rvir) b <= 3 / 10 -> gamma_r r rvir a b rc = a * fpow (r / rvir) b.
Proof.
  intros H C. unfold gamma_r. destruct (Rlt_dec r rc); [lra|]. now rewrite Rmin_left.
Qed.
Lemma shear_capped r rvir a b rc : rc <= r -> 3 / 10 <= a * fpow (r / rvir) b -> gamma_r r rvir a b rc = 3 / 10.
Proof.
  intros H C. unfold gamma_r. destruct (Rlt_dec r rc); [lra|]. now rewrite Rmin_right.
Qed.
Lemma profile_truncated r rs rvir a b rc : rvir <= r -> gamma_r_nfw_profile r rs rvir a b rc true = 0.
Proof. intro H. unfold gamma_r_nfw_profile, nfw_r. destruct (Rle_dec rvir r); [ring|contradiction]. Qed.
Lemma profile_same r rs rvir a b rc : r < rvir ->
  gamma_r_nfw_profile r rs rvir a b rc true = gamma_r_nfw_profile r rs rvir a b rc false.
Proof. intro H. unfold gamma_r_nfw_profile, nfw_r. destruct (Rle_dec rvir r); [lra|reflexivity]. Qed.
Lemma profile_bounds r rs rvir a b rc t : 0 < r -> 0 < rs -> 0 <= a ->
  0 <= gamma_r_nfw_profile r rs rvir a b rc t <= 3 / 10 * (1 / (r / rs * (1 + r / rs) ^ 2)).
Proof.
  intros H1 H2 H3. pose proof (gamma_nonneg r rvir a b rc H3). pose proof (gamma_cap r rvir a b rc).
  pose proof (nfw_nonneg r rs rvir t H1 H2). unfold gamma_r_nfw_profile.
  split; [now apply Rmult_le_pos|].
  assert (N : nfw_r r rs rvir t <= 1 / (r / rs * (1 + r / rs) ^ 2)).
  { pose proof (nfw_nonneg r rs rvir false H1 H2) as Z. unfold nfw_r in *. destruct t; [|lra].
    destruct (Rle_dec rvir r); lra. }
  apply Rmult_le_compat; assumption.
Qed.
(** The normalisation is the mass of the profile inside c scale radii. *)
Lemma mnfw_mass rs c : 0 < rs -> 0 < c ->
  is_RInt (fun r => 4 * PI * r ^ 2 * (1 / (r / rs * (1 + r / rs) ^ 2))) 0 (c * rs) (mnfw rs c).
Proof.
  intros H1 H2.
  apply (is_RInt_ext (V := R_NormedModule) (fun r => 4 * PI * rs ^ 3 * (r / (rs + r) ^ 2))).
  - intros r Hr. rewrite Rmin_left, Rmax_right in Hr by nra.
    change (@eq R (4 * PI * rs ^ 3 * (r / (rs + r) ^ 2)) (4 * PI * r ^ 2 * (1 / (r / rs * (1 + r / rs) ^ 2)))).
    field. repeat split; lra.
  - evar_last.
    + apply (is_RInt_scal (V := R_NormedModule)).
      apply (is_RInt_derive (V := R_CompleteNormedModule) (fun r => ln (rs + r) + rs / (rs + r)) (fun r => r / (rs + r) ^ 2)).
      * intros r Hr. rewrite Rmin_left, Rmax_right in Hr by nra. auto_derive; [split; [lra|split; [lra|exact I]]|]. field. lra.
      * intros r Hr. rewrite Rmin_left, Rmax_right in Hr by nra.
        apply (ex_derive_continuous (fun r => r / (rs + r) ^ 2)). auto_derive. apply Rgt_not_eq. nra.
    + unfold mnfw, scal, minus, plus, opp; simpl. unfold mult; simpl.
      replace (rs + 0) with rs by ring. replace (rs + c * rs) with (rs * (1 + c)) by ring.
      rewrite ln_mult by lra. field. lra.
Qed.

Lemma lum_distribution :
  forall nz z nl gal i, (1 <= nl)%nat ->
    match lum_in_bin nz z gal i with
    | [] => forall l0 b, 0 <= b -> mean_l_l0_to_beta nl (fst (lum_table nz z nl gal) i) (snd (lum_table nz z nl gal) i) l0 b = 0
    | x :: l =>
        sumR nl (fun j => snd (lum_table nz z nl gal) i j *
                          (hist_edge nl x (x :: l) (j + 1) - hist_edge nl x (x :: l) j)) = 1 /\
        forall j, (j < nl)%nat ->
          0 <= snd (lum_table nz z nl gal) i j /\
          fst (lum_table nz z nl gal) i j = (hist_edge nl x (x :: l) j + hist_edge nl x (x :: l) (j + 1)) / 2 /\
          hist_edge nl x (x :: l) j < fst (lum_table nz z nl gal) i j < hist_edge nl x (x :: l) (j + 1)
    end.
Proof.
  intros nz z nl gal i H. destruct (lum_in_bin nz z gal i) as [|x l] eqn:E.
  - intros. now apply empty_bin.
  - assert (S : forall j, snd (lum_table nz z nl gal) i j = hist_pdf nl x (x :: l) j)
      by (intro j; unfold lum_table; cbn [snd]; now rewrite E).
    split.
    + rewrite <- (hist_pdf_unit nl x l H). apply sumR_ext. intros j _. now rewrite S.
    + intros j Hj. destruct (lum_table_centre nz z nl gal i j x l H Hj E) as [A B].
      split; [rewrite S; now apply hist_pdf_nonneg|]. split; [|exact B].
      rewrite A, (edge_step nl x (x :: l) j) by lia. field.
Qed.

Lemma fftlog_negative :
  exists nk kv (w : A2) k, (2 <= nk)%nat /\ increasing nk kv /\ (forall i j, 0 <= w i j) /\ 0 < k /\
    upsampled_fftlog nk kv w k 0 < 0.
Proof.
  exists 2%nat, (fun i => INR i + 1), (fun _ j => if Nat.eqb j 0 then 1 else 0), 3.
  split; [lia|]. split; [intros i Hi; rewrite S_INR; lra|]. split.
  - intros i j. destruct (Nat.eqb j 0); lra.
  - split; [lra|]. unfold upsampled_fftlog, interp1d.
    rewrite interp_above; [simpl; lra|lia|intros i Hi; rewrite S_INR; lra|simpl; lra].
Qed.

(** ** The wavenumber grid of the projection. *)
Lemma ia_grid : forall fftlog nk, (2 <= ia_nk fftlog nk)%nat ->
  ia_nk true nk = 100%nat /\ ia_nk false nk = nk /\
  ia_k_vec fftlog nk 0%nat = 1 / 1000 /\ ia_k_vec fftlog nk (ia_nk fftlog nk - 1)%nat = 1000 /\
  increasing (ia_nk fftlog nk) (ia_k_vec fftlog nk) /\
  forall i, (i + 2 < ia_nk fftlog nk)%nat ->
    ia_k_vec fftlog nk (i + 1)%nat / ia_k_vec fftlog nk i = ia_k_vec fftlog nk (i + 2)%nat / ia_k_vec fftlog nk (i + 1)%nat.
Proof.
  intros f nk H. split; [reflexivity|]. split; [reflexivity|]. unfold ia_k_vec.
  split; [rewrite logspace_first by lia; apply pow10_log10; lra|].
  split; [rewrite logspace_last by lia; apply pow10_log10; lra|].
  split; [apply logspace_incr; [lia | apply log10_lt; lra]|].
  intros i Hi. unfold logspace, pow10, Rpower, Rdiv. rewrite <- !exp_Ropp, <- !exp_plus. f_equal.
  rewrite !linspace_eq by lia. rewrite !plus_INR. simpl (INR 1). simpl (INR 2). ring.
Qed.
