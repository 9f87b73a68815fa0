(** Lemmas about LhModel: the entries of a run in terms of the class HOD. *)
From Coq Require Import Ascii ZArith Lia Lra FunctionalExtensionality.
From Verif Require Import Base Quad BaseFacts QuadFacts Interp InterpFacts AddFacts2 FftModel PipeModel PipeSpec PipeFacts HodModel OptModel ChainModel PredModel MiniModel AupModel AupSpec LiaModel LiaSpec LhModel LhSpec LhFacts LhFacts2 LhFacts3 LhFacts4 LhFacts5 LhFacts6 LhFacts7 LhFacts8.
Open Scope R_scope.

Lemma least_spec l (P : R -> Prop) : (forall x, In x l <-> P x) -> l <> [] -> least_of P (least l).
Proof. intros H N. split; [apply H, least_in, N|]. intros y Y. apply least_le. now apply H. Qed.
Lemma most_spec l (P : R -> Prop) : (forall x, In x l <-> P x) -> l <> [] -> most_of P (most l).
Proof. intros H N. split; [apply H, most_in, N|]. intros y Y. apply most_ge. now apply H. Qed.
Lemma params_missing c nb b l : (forall n, In n l -> (exists x, reads b (h_values c) (param_name c nb n) x) \/ b (h_values c) (param_name c nb n) = None) ->
  (exists n, In n l /\ b (h_values c) (param_name c nb n) = None) -> lh_params c nb l b = Err "Exception".
Proof.
  induction l as [|p l IH]; intros H (n & I & E); [contradiction|]. cbn [lh_params]. destruct (H p (or_introl eq_refl)) as [(x & X)|X].
  - rewrite (reads_has _ _ _ _ X), (reads_num _ _ _ _ X). cbn [bind]. rewrite IH; [reflexivity|intros; apply H; now right|]. exists n. split; [|exact E].
    destruct I as [->|I]; [|exact I]. exfalso. unfold reads in X. rewrite E in X. destruct X as [X|(k & X & _)]; discriminate.
  - unfold LiaModel.has_value. rewrite X. reflexivity.
Qed.
Section Entries.
  Variables (over : bool) (missing wrong : string) (rows : string -> res (list (R * R * R))) (opens : string -> res unit).
  Variables (o : options) (b : dblock) (sec osec vals : string) (bias : bool) (c : hod_ctx) (md : hod_model) (c' : hconfig) (b' : dblock).
  Hypothesis Says : hod_says rows o b sec osec vals bias c md.
  Hypothesis Apart : apart sec osec vals.
  Hypothesis Set_ : lh_setup missing wrong rows opens o = Ok c'.
  Hypothesis Ran : lh_execute over c' b = (b', Ok tt).
  Let S_ := is_set _ _ _ _ _ _ _ _ _ _ _ _ _ Says Set_.
  Let A_ := apart_here _ _ _ _ _ _ _ _ _ _ _ _ _ Says Apart Set_.
  Let values_apart : h_values c' <> h_section c' /\ h_values c' <> h_obssec c'. Proof. apply (ap c' A_). now left. Qed.
  Let hmf_apart : "hmf"%string <> h_section c' /\ "hmf"%string <> h_obssec c'. Proof. apply (ap c' A_). cbn. tauto. Qed.
  Let bias_apart : "halobias"%string <> h_section c' /\ "halobias"%string <> h_obssec c'. Proof. apply (ap c' A_). cbn. tauto. Qed.
  Let h_apart : "cosmological_parameters"%string <> h_section c' /\ "cosmological_parameters"%string <> h_obssec c'. Proof. apply (ap c' A_). cbn. tauto. Qed.
  Section OneBin.
    Variable k : nat.
    Hypothesis L : (k < nbins (c_set c))%nat.
    Let at_bin n := b' sec (PipeSpec.bin_name n (nbins (c_set c)) k).
    Let nz_ := nz (c_set c).
    Lemma occupations : holds_array (at_bin "z") nz_ (hod_z (c_set c) k) /\ holds_array (at_bin "mass") (c_nm c) (c_mass c) /\
      holds_table (at_bin "N_cen") nz_ (c_nm c) (compute_hod_cen c md k) /\ holds_table (at_bin "N_sat") nz_ (c_nm c) (compute_hod_sat c md k) /\ holds_table (at_bin "N_tot") nz_ (c_nm c) (compute_hod c md k).
    Proof.
      destruct (bin_block over _ _ _ _ _ _ _ _ _ _ _ _ _ Says Apart Set_ b' Ran k L) as (kw & i & h & zb & pb & (B1 & B2 & B3 & _) & Q1 & Q2 & V & _). destruct S_ as (S1 & S2 & S3 & S4 & S5 & S6 & _). unfold at_bin, nz_.
      rewrite (V "z"%string (arr c' (h_z c' k))) by (cbn; tauto). rewrite (V "mass"%string (BArr (i_mass i))) by (cbn; tauto).
      rewrite (V "N_cen"%string (tab c' i (lh_cen (lh_bin c' i kw k)))) by (cbn; tauto). rewrite (V "N_sat"%string (tab c' i (lh_sat (lh_bin c' i kw k)))) by (cbn; tauto). rewrite (V "N_tot"%string (tab c' i (lh_tot (lh_bin c' i kw k)))) by (cbn; tauto).
      unfold arr, tab. rewrite B1, B2, B3, S2, S5, <- Q1. repeat split; try (apply holds_grid; reflexivity); [apply holds_row; reflexivity|].
      exists (i_mass i). split; [reflexivity|]. split; [now rewrite Q1|]. intros j _. now rewrite Q2.
    Qed.
    Lemma densities : holds_array (at_bin "number_density_cen") nz_ (ncen c md k) /\ holds_array (at_bin "number_density_sat") nz_ (nsat c md k) /\ holds_array (at_bin "number_density_tot") nz_ (ntot c md k) /\
      holds_array (at_bin "central_fraction") nz_ (fun j => ncen c md k j / ntot c md k j) /\ holds_array (at_bin "satellite_fraction") nz_ (fun j => nsat c md k j / ntot c md k j) /\
      holds_array (at_bin "average_halo_mass") nz_ (fun j => mass_avg_cen c md k j / ncen c md k j).
    Proof.
      destruct (bin_block over _ _ _ _ _ _ _ _ _ _ _ _ _ Says Apart Set_ b' Ran k L) as (kw & i & h & zb & pb & (B1 & B2 & B3 & B4 & B5 & _) & Q1 & Q2 & V & _). destruct S_ as (S1 & S2 & _). unfold at_bin, nz_.
      set (x := lh_bin c' i kw k) in *. assert (D1 : forall j, lh_density x (lh_cen x) j = ncen c md k j) by (intros j; rewrite B1; apply B4). assert (D2 : forall j, lh_density x (lh_sat x) j = nsat c md k j) by (intros j; rewrite B2; apply B4).
      assert (D3 : forall j, lh_density x (lh_tot x) j = ntot c md k j) by (intros j; rewrite B3; apply B4). assert (D4 : forall j, lh_mass x (lh_cen x) j = mass_avg_cen c md k j) by (intros j; rewrite B1; apply B5).
      rewrite (V "number_density_cen"%string (arr c' (lh_density x (lh_cen x)))) by (cbn; tauto). rewrite (V "number_density_sat"%string (arr c' (lh_density x (lh_sat x)))) by (cbn; tauto).
      rewrite (V "number_density_tot"%string (arr c' (lh_density x (lh_tot x)))) by (cbn; tauto). rewrite (V "central_fraction"%string (arr c' (fun j => lh_density x (lh_cen x) j / lh_density x (lh_tot x) j))) by (cbn; tauto).
      rewrite (V "satellite_fraction"%string (arr c' (fun j => lh_density x (lh_sat x) j / lh_density x (lh_tot x) j))) by (cbn; tauto).
      rewrite (V "average_halo_mass"%string (arr c' (fun j => lh_mass x (lh_cen x) j / lh_density x (lh_cen x) j))) by (cbn; tauto).
      unfold arr. rewrite S2. repeat split; apply holds_row; intros j _; now rewrite ?D1, ?D2, ?D3, ?D4.
    Qed.
    Lemma biases : bias = true -> holds_array (at_bin "galaxy_bias_centrals") nz_ (bg_cen c md k) /\ holds_array (at_bin "galaxy_bias_satellites") nz_ (bg_sat c md k) /\ holds_array (at_bin "b") nz_ (bg_tot c md k).
    Proof.
      intros T. destruct (bin_block over _ _ _ _ _ _ _ _ _ _ _ _ _ Says Apart Set_ b' Ran k L) as (kw & i & h & zb & pb & (B1 & B2 & B3 & B4 & _ & B6 & _) & Q1 & Q2 & V & _). destruct S_ as (S1 & S2 & _). unfold at_bin, nz_.
      set (x := lh_bin c' i kw k) in *. specialize (B6 T). assert (D3 : forall j, lh_density x (lh_tot x) j = ntot c md k j) by (intros j; rewrite B3; apply B4).
      pose proof (is_bias _ _ _ _ _ _ _ _ _ _ _ _ _ Says Set_) as T'. rewrite T in T'. unfold sec_list in V. rewrite T' in V. cbv zeta in V. fold x in V. set (hb := fun j => at_z zb pb (h_z c' k j)) in *.
      rewrite (V "galaxy_bias_centrals"%string (arr c' (fun j => lh_bias x hb (lh_cen x) j / lh_density x (lh_tot x) j))) by (apply in_or_app; right; apply in_or_app; right; cbn; tauto).
      rewrite (V "galaxy_bias_satellites"%string (arr c' (fun j => lh_bias x hb (lh_sat x) j / lh_density x (lh_tot x) j))) by (apply in_or_app; right; apply in_or_app; right; cbn; tauto).
      rewrite (V "b"%string (arr c' (fun j => lh_bias x hb (lh_tot x) j / lh_density x (lh_tot x) j))) by (apply in_or_app; right; apply in_or_app; right; cbn; tauto).
      unfold arr. rewrite S2. repeat split; apply holds_row; intros j _; rewrite D3; [rewrite B1|rewrite B2|rewrite B3]; apply B6.
    Qed.
    Lemma fractions p : md = Cacciato p -> holds_table (at_bin "f_star") nz_ (c_nm c) (fun j m => unit_scale c (star_frac c (COF c p) k j m)).
    Proof.
      intros E. destruct (bin_block over _ _ _ _ _ _ _ _ _ _ _ _ _ Says Apart Set_ b' Ran k L) as (kw & i & h & zb & pb & (_ & _ & _ & _ & _ & _ & B7) & Q1 & Q2 & V & _). destruct S_ as (S1 & S2 & _). unfold at_bin, nz_.
      destruct (B7 p E) as (F1 & F2 & _). set (x := lh_bin c' i kw k) in *. pose proof (names_cacciato _ _ _ _ _ _ _ _ _ _ _ _ _ Says Set_ p E) as M.
      rewrite (V "f_star"%string (tab c' i (fun j m => lh_fstar x j m * h))) by (unfold sec_list; rewrite M; cbv zeta; apply in_or_app; right; apply in_or_app; left; now left).
      unfold tab. rewrite S2, <- Q1. apply holds_grid. intros j m _ _. now rewrite F1, F2.
    Qed.
    (** The observable functions of the bin. *)
    Lemma bin_functions p : md = Cacciato p -> h_save c' = true -> h_mode c' = "obs_z"%string ->
      exists lo hi, least_of (bin_observables (c_set c) k) lo /\ most_of (bin_observables (c_set c) k) hi /\ let x := logspace (log10 lo) (log10 hi) (hs_nobs (c_set c)) in
        holds_array (b' osec ("z_bin_" ++ dec (k + 1))%string) nz_ (hod_z (c_set c) k) /\ holds_array (b' osec ("obs_val_" ++ dec (k + 1))%string) (hs_nobs (c_set c)) x /\
        forall s, In s [""; "_c"; "_s"]%string -> holds_table (b' osec ("obs_func" ++ s ++ "_" ++ dec (k + 1))%string) nz_ (hs_nobs (c_set c))
          (fun j q => ln 10 * interp1d (FillPair 0 0) (hs_nobs (c_set c)) (hod_obs (c_set c) k j) (fun q => observable_function c (which s p) (hod_z (c_set c) k j) (hod_obs (c_set c) k j q)) (x q) * x q).
    Proof.
      intros E Sv Md. destruct (bin_block over _ _ _ _ _ _ _ _ _ _ _ _ _ Says Apart Set_ b' Ran k L) as (kw & i & h & zb & pb & (_ & _ & _ & _ & _ & _ & B7) & Q1 & Q2 & _ & V). destruct S_ as (S1 & S2 & S3 & _ & S5 & S6 & _ & S8 & S9).
      destruct (B7 p E) as (_ & _ & F3). set (x := lh_bin c' i kw k) in *. pose proof (names_cacciato _ _ _ _ _ _ _ _ _ _ _ _ _ Says Set_ p E) as M.
      unfold obs_list in V. rewrite Sv, Md, M in V. cbn [andb String.eqb Ascii.eqb Bool.eqb] in V.
      assert (O : forall y, In y (obs_values c' k) <-> bin_observables (c_set c) k y).
      { intros y. unfold obs_values, bin_observables. rewrite in_flat_map. split.
        - intros (j & J & I). apply in_seq in J. apply in_row in I. destruct I as (q & Lq & ->). exists j, q. rewrite <- S6. repeat split; lia.
        - intros (j & q & Lj & Lq & ->). exists j. split; [apply in_seq; lia|]. apply in_row. exists q. rewrite S6. split; [lia|reflexivity]. }
      assert (N : obs_values c' k <> []). { intros Em. assert (I : In (hod_obs (c_set c) k 0 0) (obs_values c' k)) by (apply O; exists 0%nat, 0%nat; repeat split; assumption). rewrite Em in I. contradiction. }
      exists (least (obs_values c' k)), (most (obs_values c' k)). split; [now apply least_spec|]. split; [now apply most_spec|]. cbv zeta. unfold nz_.
      change (logspace (log10 (least (obs_values c' k))) (log10 (most (obs_values c' k))) (hs_nobs (c_set c))) with (obs_range (obs_values c' k) (hs_nobs (c_set c))). rewrite <- S3.
      split; [|split].
      - change ("z_bin_" ++ dec (k + 1))%string with ("z_bin" ++ "_" ++ dec (k + 1))%string. rewrite (V "z_bin"%string (arr c' (h_z c' k))) by (cbn; tauto). unfold arr. rewrite S2, S5. apply holds_row. reflexivity.
      - change ("obs_val_" ++ dec (k + 1))%string with ("obs_val" ++ "_" ++ dec (k + 1))%string. rewrite (V "obs_val"%string (BArr (row (h_nobs c') (obs_range (obs_values c' k) (h_nobs c'))))) by (cbn; tauto). apply holds_row. reflexivity.
      - assert (G : forall f g, (forall y m, f p y m = g y m) -> holds_table (Some (obs_of c' i kw k f)) (nz (c_set c)) (h_nobs c')
          (fun j q => ln 10 * interp1d (FillPair 0 0) (h_nobs c') (hod_obs (c_set c) k j) (fun q => observable_function c g (hod_z (c_set c) k j) (hod_obs (c_set c) k j q)) (obs_range (obs_values c' k) (h_nobs c') q) * obs_range (obs_values c' k) (h_nobs c') q)).
        { intros f g Fg. unfold obs_of. cbv zeta. fold x. rewrite S2. apply holds_grid. intros j q _ _. rewrite S6. replace (lh_obs_func x f j) with (fun q => observable_function c g (hod_z (c_set c) k j) (hod_obs (c_set c) k j q)); [reflexivity|].
          apply functional_extensionality. intros q'. rewrite F3. unfold observable_function, obs_func_of, dndlnm_int, mass_function_at. f_equal. apply functional_extensionality. intros m. now rewrite Fg. }
        intros s [<-|[<-|[<-|[]]]].
        + change ("obs_func" ++ "" ++ "_" ++ dec (k + 1))%string with ("obs_func" ++ "_" ++ dec (k + 1))%string. rewrite (V "obs_func"%string (obs_of c' i kw k cof)) by (cbn; tauto). now apply G.
        + change ("obs_func" ++ "_c" ++ "_" ++ dec (k + 1))%string with ("obs_func_c" ++ "_" ++ dec (k + 1))%string. rewrite (V "obs_func_c"%string (obs_of c' i kw k cof_cen)) by (cbn; tauto). now apply G.
        + change ("obs_func" ++ "_s" ++ "_" ++ dec (k + 1))%string with ("obs_func_s" ++ "_" ++ dec (k + 1))%string. rewrite (V "obs_func_s"%string (obs_of c' i kw k cof_sat)) by (cbn; tauto). now apply G.
    Qed.
  End OneBin.
  (** Entries that are not of one bin. *)
  Lemma counts : b' sec "nbins"%string = Some (BInt (Z.of_nat (nbins (c_set c)))) /\ b' sec "observable_z"%string = Some (BInt (if OptModel.has_value o "observables_file" then 1 else 0)) /\
    (h_save c' = true -> b' osec "obs_func_definition"%string = Some (BStr "obs_func * obs * ln(10)") /\ b' osec "observable_mode"%string = Some (BStr (h_mode c'))).
  Proof.
    destruct (run_ok over c' values_apart h_apart bias_apart hmf_apart b b' Ran) as (names & i & kw & ext & M & I & R & P & X & B).
    destruct (head_value c' A_ b b' names i kw ext R X B) as [H1 H2]. rewrite (is_sec _ _ _ _ _ _ _ _ _ _ _ _ _ Says Set_) in H1, H2. rewrite (proj1 S_) in H1.
    replace (h_obsz c') with (OptModel.has_value o "observables_file") in H2 by (symmetry; apply (setup_names _ _ _ _ _ _ Set_)). split; [exact H1|]. split; [exact H2|].
    intros Sv. pose proof (label_value c' A_ b b' names i kw ext R X B Sv) as H3. now rewrite (is_osec _ _ _ _ _ _ _ _ _ _ _ _ _ Says Set_) in H3.
  Qed.
  Lemma extended p : md = Cacciato p -> exists z0 z1 lo hi, least_of (redshifts (c_set c)) z0 /\ most_of (redshifts (c_set c)) z1 /\ least_of (observables (c_set c)) lo /\ most_of (observables (c_set c)) hi /\
    let zs := linspace z0 z1 15 in let x := logspace (log10 lo) (log10 hi) in
    holds_array (b' sec "z_extended"%string) 15 zs /\ holds_array (b' sec "mass_extended"%string) (c_nm c) (c_mass c) /\
    holds_table (b' sec "f_star_extended"%string) 15 (c_nm c) (fun _ m => unit_scale c (simpson 100 (fun q => cof p (x 100%nat q) (c_mass c m) * x 100%nat q) (x 100%nat) / c_mass c m)) /\
    (h_save c' = true -> h_mode c' = "obs_onebin"%string ->
      holds_array (b' osec "z_bin_1"%string) 15 zs /\ holds_array (b' osec "obs_val_1"%string) 100 (x 100%nat) /\
      forall s, In s [""; "_c"; "_s"]%string -> holds_table (b' osec ("obs_func" ++ s ++ "_1")%string) 15 100 (fun j q => ln 10 * observable_function c (which s p) (zs j) (x 100%nat q) * x 100%nat q)) /\
    (h_save c' = true -> h_mode c' = "obs_zmed"%string -> let n := hs_nobs (c_set c) in
      holds_array (b' osec "obs_val_med"%string) n (x n) /\ holds_array (b' osec "halo_mass_med"%string) (c_nm c) (c_mass c) /\
      holds_array (b' osec "mean_obs_halo_mass_relation"%string) 1 (fun _ => mean_obs_c p (c_mass c 0%nat)) /\
      forall s, In s [""; "_c"; "_s"]%string -> holds_array (b' osec ("obs_func_med" ++ s)%string) n (fun q => ln 10 * observable_function c (which s p) (h_zmed c') (x n q) * x n q)).
  Proof.
    intros E. destruct (run_ok over c' values_apart h_apart bias_apart hmf_apart b b' Ran) as (names & i0 & kw & ext & M & I & R & P & X & B).
    pose proof (names_cacciato _ _ _ _ _ _ _ _ _ _ _ _ _ Says Set_ p E) as Mo. destruct (ext_values c' A_ b b' names i0 kw ext R X B Mo) as (h & Hf & V1 & V2 & V3).
    rewrite (is_sec _ _ _ _ _ _ _ _ _ _ _ _ _ Says Set_) in V1. rewrite (is_osec _ _ _ _ _ _ _ _ _ _ _ _ _ Says Set_) in V2, V3.
    destruct (is_halos _ _ _ _ _ _ _ _ _ _ _ _ _ Says Set_) as (mass & z & dn & I' & Q1 & Q2 & Q3 & Q4 & Q5 & _). rewrite I' in I. injection I as <-. set (i := {| i_dn := dn |}) in *.
    destruct S_ as (S1 & S2 & S3 & _ & S5 & S6 & S7 & S8 & S9). pose proof (is_factor _ _ _ _ _ _ _ _ _ _ _ _ _ Says Set_ h Hf) as U.
    assert (Oz : forall y, In y (all_z c') <-> redshifts (c_set c) y).
    { intros y. unfold all_z, redshifts. rewrite in_flat_map. split.
      - intros (k & K & J). apply in_seq in K. apply in_row in J. destruct J as (j & J & ->). exists k, j. rewrite <- S5. repeat split; lia.
      - intros (k & j & K & J & ->). exists k. split; [apply in_seq; lia|]. apply in_row. exists j. rewrite S5. split; [lia|reflexivity]. }
    assert (Oo : forall y, In y (all_obs c') <-> observables (c_set c) y).
    { intros y. unfold all_obs, obs_values, observables. rewrite in_flat_map. split.
      - intros (k & K & J). apply in_seq in K. apply in_flat_map in J. destruct J as (j & J & Iq). apply in_seq in J. apply in_row in Iq. destruct Iq as (q & Q & ->). exists k, j, q. rewrite <- S6. repeat split; lia.
      - intros (k & j & q & K & J & Q & ->). exists k. split; [apply in_seq; lia|]. apply in_flat_map. exists j. split; [apply in_seq; lia|]. apply in_row. exists q. rewrite S6. split; [lia|reflexivity]. }
    assert (Nz : all_z c' <> []). { intros Em. assert (J : In (hod_z (c_set c) 0 0) (all_z c')) by (apply Oz; exists 0%nat, 0%nat; repeat split; assumption). rewrite Em in J. contradiction. }
    assert (No : all_obs c' <> []). { intros Em. assert (J : In (hod_obs (c_set c) 0 0 0) (all_obs c')) by (apply Oo; exists 0%nat, 0%nat, 0%nat; repeat split; assumption). rewrite Em in J. contradiction. }
    exists (least (all_z c')), (most (all_z c')), (least (all_obs c')), (most (all_obs c')). split; [now apply least_spec|]. split; [now apply most_spec|]. split; [now apply least_spec|]. split; [now apply most_spec|]. cbv zeta.
    change (logspace (log10 (least (all_obs c'))) (log10 (most (all_obs c')))) with (obs_range (all_obs c')).
    assert (Pc : forall n zz no ob, lh_cacciato (lh_new c' i kw n zz no ob) = p) by (intros; exact (par_cacciato _ _ _ _ _ _ _ _ _ _ _ _ _ Says Set_ names _ kw mass z dn M P p n zz no ob E)).
    assert (Fn : forall f g n zz no ob j q, (forall y m, f p y m = g y m) -> lh_obs_func (lh_new c' i kw n zz no ob) f j q = observable_function c g (zz j) (ob j q)).
    { intros f g n zz no ob j q Fg. unfold lh_obs_func. rewrite Pc. unfold observable_function, mass_function_at. rewrite Q1, Q2, Q3, Q4, Q5. cbn [lo_nm lo_mass lo_dndlnm lo_obs lh_new i_mass i]. f_equal. apply functional_extensionality. intros m. now rewrite Fg. }
    assert (Ma : holds_array (Some (BArr mass)) (c_nm c) (c_mass c)). { exists mass. split; [reflexivity|]. split; [now rewrite Q1|]. intros j _. now rewrite Q2. }
    split; [|split; [|split; [|split]]].
    - rewrite (V1 "z_extended"%string (BArr (row 15 (linspace (least (all_z c')) (most (all_z c')) 15)))) by (unfold ext_sec; cbv zeta; now left). apply holds_row. reflexivity.
    - rewrite (V1 "mass_extended"%string (BArr (i_mass i))) by (unfold ext_sec; cbv zeta; right; now left). exact Ma.
    - rewrite (V1 "f_star_extended"%string _) by (unfold ext_sec; cbv zeta; right; right; left; reflexivity). change (List.length (i_mass i)) with (List.length mass). rewrite <- Q1. apply holds_grid. intros j m _ _. rewrite U.
      unfold lh_fstar. rewrite Pc, Q2. reflexivity.
    - intros Sv Md. unfold ext_obs in V2. rewrite Sv, Md in V2. cbv zeta in V2. cbn [andb String.eqb Ascii.eqb Bool.eqb] in V2.
      split; [|split].
      + change "z_bin_1"%string with ("z_bin" ++ "_1")%string. rewrite (V2 "z_bin"%string _) by (left; reflexivity). apply holds_row. reflexivity.
      + change "obs_val_1"%string with ("obs_val" ++ "_1")%string. rewrite (V2 "obs_val"%string _) by (right; left; reflexivity). apply holds_row. reflexivity.
      + intros s [<-|[<-|[<-|[]]]].
        * change ("obs_func" ++ "" ++ "_1")%string with ("obs_func" ++ "_1")%string. rewrite (V2 "obs_func"%string _) by (right; right; left; reflexivity). apply holds_grid. intros j q _ _. now rewrite (Fn cof (which "" p)).
        * change ("obs_func" ++ "_c" ++ "_1")%string with ("obs_func_c" ++ "_1")%string. rewrite (V2 "obs_func_c"%string _) by (right; right; right; left; reflexivity). apply holds_grid. intros j q _ _. now rewrite (Fn cof_cen (which "_c" p)).
        * change ("obs_func" ++ "_s" ++ "_1")%string with ("obs_func_s" ++ "_1")%string. rewrite (V2 "obs_func_s"%string _) by (right; right; right; right; left; reflexivity). apply holds_grid. intros j q _ _. now rewrite (Fn cof_sat (which "_s" p)).
    - intros Sv Md. unfold med_obs in V3. rewrite Sv, Md in V3. cbv zeta in V3. cbn [andb String.eqb Ascii.eqb Bool.eqb] in V3. rewrite S3 in V3.
      split; [|split; [|split]].
      + rewrite (V3 "obs_val_med"%string _) by (left; reflexivity). apply holds_row. reflexivity.
      + rewrite (V3 "halo_mass_med"%string _) by (right; right; right; right; left; reflexivity). exact Ma.
      + rewrite (V3 "mean_obs_halo_mass_relation"%string _) by (right; right; right; right; right; left; reflexivity). apply holds_row. intros j _. rewrite Pc, Q2. reflexivity.
      + intros s [<-|[<-|[<-|[]]]].
        * change ("obs_func_med" ++ "")%string with "obs_func_med"%string. rewrite (V3 "obs_func_med"%string _) by (right; left; reflexivity). apply holds_row. intros q _. now rewrite (Fn cof (which "" p)).
        * change ("obs_func_med" ++ "_c")%string with "obs_func_med_c"%string. rewrite (V3 "obs_func_med_c"%string _) by (right; right; left; reflexivity). apply holds_row. intros q _. now rewrite (Fn cof_cen (which "_c" p)).
        * change ("obs_func_med" ++ "_s")%string with "obs_func_med_s"%string. rewrite (V3 "obs_func_med_s"%string _) by (right; right; right; left; reflexivity). apply holds_row. intros q _. now rewrite (Fn cof_sat (which "_s" p)).
  Qed.
End Entries.
