(** Bounds on the legacy concentrations, normalised profiles, wavenumbers, and a concrete run. *)
From Coq Require Import ZArith.
From Coquelicot Require Import Coquelicot.
From Verif Require Import Base BaseFacts Quad FftModel HmiModel HmiSpec HmiFacts3 HmiFacts4 HmiFacts5 HmiExample OptModel Spec ChainModel MiniModel LgModel LgSpec LgFacts LgFacts2 LgFacts3.
Open Scope R_scope.

Lemma conc_at_least g sigma root dc z M zf n : growing g -> root_law root g -> 0 <= z <= 999 ->
  0 < sigma (1/100 * M) -> collapse_redshift g sigma root dc z M = Ok zf -> 0 < n ->
  n <= n * (1 + zf) / (1 + z) /\ (n * (1 + zf) / (1 + z) = n <-> sigma (1/100 * M) <= dc).
Proof.
  intros HG HR Hz HS E Hn.
  assert (P : 0 < 1 + z) by lra.
  destruct (collapse_cases g sigma root dc z HG HR Hz M zf HS E) as [[A ->]|(A & B & _)].
  - replace (n * (1 + z) / (1 + z)) with n by (field; lra). split; [lra|]. split; auto.
  - assert (L : n < n * (1 + zf) / (1 + z)).
    { apply Rmult_lt_reg_r with (1 + z); [exact P|]. unfold Rdiv. rewrite (Rmult_assoc (n * (1 + zf))), Rinv_l, Rmult_1_r by lra.
      apply Rmult_lt_compat_l; lra. }
    split; [lra|]. split; intros Q; lra.
Qed.

Lemma normalised_first u m : (m < List.length (hd [] u))%nat -> nth m (hd [] u) 0 <> 0 ->
  nth m (hd [] (lg_normalise u)) 0 = 1 /\ List.length (lg_normalise u) = List.length u.
Proof.
  unfold lg_normalise. destruct u as [|r u]; cbn [hd List.length map]; [intros H; cbn in H; lia|]. intros Hm Hz.
  split; [|rewrite map_length; reflexivity].
  rewrite (nth_indep _ 0 ((fun m => nth m r 0 / nth m r 0) 0%nat)) by (rewrite map_length, seq_length; exact Hm).
  rewrite (map_nth (fun m => nth m r 0 / nth m r 0)), seq_nth by exact Hm. cbn. field. exact Hz.
Qed.

(** What a run reads. *)
Lemma read_k astro cfg b i : lg_read astro cfg b = Ok i -> exists ks, array b "matter_power_lin" "k_h" = Ok ks /\ ks <> [] /\
  li_k i = map (logspace (log10 (hd 0 ks)) (log10 (last ks (hd 0 ks))) (lc_nk cfg)) (seq 0 (lc_nk cfg)) /\
  block_num b (lc_values cfg) "norm_cen" = Ok (li_norm_cen i) /\ block_num b (lc_values cfg) "norm_sat" = Ok (li_norm_sat i) /\
  block_num b (lc_values cfg) "eta_cen" = Ok (li_eta_cen i) /\ block_num b (lc_values cfg) "eta_sat" = Ok (li_eta_sat i) /\
  exists args, run_arguments b = Ok args /\ li_cosmo i = astro args.
Proof.
  unfold lg_read. intros E.
  destruct (run_arguments b) as [args|] eqn:E1; cbn [bind] in E; [|discriminate E].
  destruct (number b "n_s") as [ns|] eqn:E2; cbn [bind] in E; [|discriminate E].
  destruct (number b "sigma_8") as [s8|] eqn:E3; cbn [bind] in E; [|discriminate E].
  destruct (block_num b (lc_values cfg) "norm_cen") as [nc|] eqn:E4; cbn [bind] in E; [|discriminate E].
  destruct (block_num b (lc_values cfg) "norm_sat") as [nt|] eqn:E5; cbn [bind] in E; [|discriminate E].
  destruct (block_num b (lc_values cfg) "eta_cen") as [ec|] eqn:E6; cbn [bind] in E; [|discriminate E].
  destruct (block_num b (lc_values cfg) "eta_sat") as [et|] eqn:E7; cbn [bind] in E; [|discriminate E].
  destruct (array b "matter_power_lin" "k_h") as [ks|] eqn:E8; cbn [bind] in E; [|discriminate E].
  destruct ks as [|k0 ks]; cbn [bind] in E; [discriminate E|].
  repeat step_bind E. injection E as <-. cbn [li_k li_norm_cen li_norm_sat li_eta_cen li_eta_sat li_cosmo].
  exists (k0 :: ks). split; [reflexivity|]. split; [discriminate|]. split; [reflexivity|].
  do 4 (split; [reflexivity|]). exists args. split; reflexivity.
Qed.

(** *** A run *)
Definition toy_masses (mn mx dm : R) : list R := [1; 10].
Definition toy_options (use : string) : options := fun n =>
  if String.eqb n "log_mass_min" then Some (ODbl 12) else if String.eqb n "log_mass_max" then Some (ODbl 14)
  else if String.eqb n "nmass" then Some (OInt 2) else if String.eqb n "zmin" then Some (ODbl 0)
  else if String.eqb n "zmax" then Some (ODbl 1) else if String.eqb n "nz" then Some (OInt 2)
  else if String.eqb n "nk" then Some (OInt 3) else if String.eqb n "hmf_model" then Some (OStr "Tinker10")
  else if String.eqb n "mdef_model" then Some (OStr "SOMean") else if String.eqb n "overdensity" then Some (ODbl 200)
  else if String.eqb n "cm_model" then Some (OStr "Duffy08") else if String.eqb n "delta_c" then Some (ODbl (1686/1000))
  else if String.eqb n "bias_model" then Some (OStr "Tinker10")
  else if String.eqb n "use_mead2020_corrections" then Some (OStr use) else None.
Definition toy_block (norm_sat eta_sat : R) : dblock := fun s n =>
  if String.eqb s "cosmological_parameters" then Some (BDbl (3/10))
  else if String.eqb s "profile_parameters" then
    if String.eqb n "norm_cen" then Some (BDbl 1) else if String.eqb n "norm_sat" then Some (BDbl norm_sat)
    else if String.eqb n "eta_cen" then Some (BDbl 0) else if String.eqb n "eta_sat" then Some (BDbl eta_sat) else None
  else if String.eqb s "halo_model_parameters" then Some (BDbl (78/10))
  else if String.eqb s "matter_power_lin" then Some (BArr [1/10; 1; 10])
  else if String.eqb s "matter_power_transfer_func" then Some (BArr [1/10; 1; 10])
  else if String.eqb s "growth_parameters" then Some (BArr [0; 1]) else None.
Definition toy_reads (b : dblock) (k : list R) : lg_reads :=
  {| rd_cm := fun x => match dget (hp_conc_par x) "norm" with Some n => [5 * n; 4 * n] | None => [5; 4] end;
     rd_u := fun x c => [[2; 2]; [1; 1]; [1/2; 1/2]];
     rd_rs := fun x => [1; 2]; rd_rvir := fun x => [1; 2]; rd_overdensity := fun x => 200;
     rd_nu := fun x => [1; 4]; rd_dndlnm := fun x => [2; 1]; rd_mean0 := fun x => 1; rd_mean := fun x => (1 + hp_z x) ^ 3;
     rd_bias := fun x => [1; 2]; rd_neff := fun x => -2; rd_s8 := ex_s8 |}.
Definition toy_astro (args : list R) : cosmo := ex_eds.
Definition toy_growth (c : cosmo) (a : R) : R := a.
Definition toy_s8 (b : dblock) (x : hpar) : R := ex_s8 x.
(** Every mass of the toy run collapses at the redshift of observation. *)
Definition toy_variance (b : dblock) (x : hpar) (M : R) : R := hp_delta_c x.

Lemma toy_population b k : population (toy_reads b k).
Proof. repeat split; try (intros x x' E ? ? ? ? ? ?; reflexivity); intros x x' E ? ? ? ? ? ?; cbn; unfold ex_s8; rewrite E; reflexivity. Qed.
Lemma toy_s8_free b : profile_free (toy_s8 b).
Proof. exact ex_s8_law. Qed.
Lemma toy_variance_free b : profile_free (toy_variance b).
Proof. intros x x' ? ? ? E ? ? ?. unfold toy_variance. rewrite E. reflexivity. Qed.
Lemma toy_nothing : from_nothing dset_merge ex_mset.
Proof. split; [reflexivity|]. intros m m'. unfold ex_mset. destruct (String.eqb m m'); reflexivity. Qed.
Lemma toy_set use : exists cfg x0, lg_setup toy_masses [] "missing" "wrong" (toy_options use) = Ok (cfg, x0) /\
  lc_mead cfg = lg_correction use /\ lc_z cfg = [linspace 0 1 2 0; linspace 0 1 2 1] /\ lc_mass cfg = [1; 10] /\ lc_nk cfg = 3%nat /\ lc_values cfg = "profile_parameters"%string.
Proof. eexists. eexists. split; [reflexivity|]. repeat split. Qed.
Lemma toy_read cfg ns es : lc_nk cfg = 3%nat -> lc_values cfg = "profile_parameters"%string ->
  exists i, lg_read toy_astro cfg (toy_block ns es) = Ok i /\ li_cosmo i = ex_eds /\ li_norm_sat i = ns /\ li_eta_sat i = es /\ li_norm_cen i = 1 /\ li_eta_cen i = 0.
Proof. intros Hn Hv. unfold lg_read. rewrite Hv. cbn -[logspace log10]. eexists. split; [reflexivity|]. repeat split. Qed.

(** The Einstein-de Sitter threshold is positive. *)
Lemma toy_dc z : 0 <= z <= 1 ->
  0 < dc_Mead ex_eds (toy_growth ex_eds (scale_factor z)) (lg_accumulated (scale_factor z) (toy_growth ex_eds)) z.
Proof.
  intros Hz. assert (HF : flat_universe ex_eds) by (apply ex_flat; lra).
  destruct (eds_collapse ex_eds (fun a => a) (fun _ => 1) z (ex_law _ _ _) HF ex_eds_solves) as [_ E];
    [cbn; lra|cbn; lra|lra|].
  change (0 < dc_Mead ex_eds (scale_factor z) (accumulated_growth (fun a => a) (scale_factor z)) z). rewrite E.
  unfold mead_fnu. cbn [ex_eds ex_cosmo co_Onu0 co_Om0].
  assert (0 < fpow (12 * PI) (2 / 3)) by (apply BaseFacts.fpow_gt0; pose proof PI_RGT_0; lra).
  apply Rmult_lt_0_compat; [nra|lra].
Qed.

Notation toy_exec := (lg_execute dset_merge ex_mset toy_astro toy_growth ex_root toy_s8 toy_variance toy_reads).
Lemma toy_runs use ns es cfg x0 : lg_setup toy_masses [] "missing" "wrong" (toy_options use) = Ok (cfg, x0) ->
  exists o, snd (toy_exec cfg x0 (toy_block ns es)) = Ok o.
Proof.
  intros SE. destruct (toy_set use) as (cfg' & x0' & SE' & A1 & A2 & A3 & A4 & A5).
  rewrite SE in SE'. injection SE' as <- <-.
  apply when_fails; [exact merge_law|exact ex_mset_law|exact toy_s8_free|exact toy_variance_free|rewrite A2; discriminate|].
  intros z Iz. assert (Hz : 0 <= z <= 1).
  { rewrite A2 in Iz. destruct Iz as [<-|[<-|[]]]; unfold linspace; cbn; lra. }
  destruct (toy_read cfg ns es A4 A5) as (i & Hi & Ec & _).
  assert (exists r, snd (lg_turn dset_merge ex_mset toy_growth ex_root toy_s8 toy_variance cfg (toy_block ns es) i x0 z) = Ok r) as [r Hr].
  { unfold lg_turn. destruct (lc_mead cfg) as [m|]; [|eexists; reflexivity].
    unfold lg_turn_mead. cbv zeta. rewrite A3, Ec.
    set (dc := lg_dc_Mead _ _ _ _ _). assert (Hdc : 0 < dc) by (exact (toy_dc z Hz)).
    assert (exists n, lg_norm m (toy_block ns es) z = Ok n) as [n ->] by (destruct m; eexists; reflexivity).
    cbn [bind lg_collapse].
    assert (C : forall M x, hp_delta_c x = dc -> collapse_redshift (toy_growth ex_eds) (toy_variance (toy_block ns es) x) ex_root dc z M = Ok (-1 + 1 / scale_factor z)).
    { intros M x Ex. unfold collapse_redshift. cbv zeta. unfold toy_variance. rewrite Ex.
      destruct (Rle_dec _ _) as [_|N]; [reflexivity|]. exfalso. apply N. unfold Rdiv. rewrite Rmult_assoc, Rinv_r, Rmult_1_r by lra. lra. }
    rewrite !C by reflexivity. cbn [bind snd]. eexists; reflexivity. }
  rewrite (only_ok _ _ _ _ _ _ _ _ merge_law ex_mset_law toy_s8_free toy_variance_free cfg x0 _ i z r Hi Hr). eexists. reflexivity.
Qed.

Lemma correction_names s : (lg_correction s = Some NoFeedback <-> s = "mead2020"%string) /\
  (lg_correction s = Some Feedback <-> s = "mead2020_feedback"%string).
Proof.
  unfold lg_correction. destruct (String.eqb_spec s "mead2020") as [->|N].
  - split; split; intros E; try reflexivity; discriminate.
  - destruct (String.eqb_spec s "mead2020_feedback") as [->|N'].
    + split; split; intros E; try reflexivity; discriminate.
    + split; split; intros E; try discriminate; contradiction.
Qed.
Lemma get_string_none missing wrong (o : options) n v : get_string missing wrong o n None = Ok v -> o n = Some (OStr v).
Proof. unfold get_string, absent. destruct (o n) as [[]|]; intros E; try discriminate. injection E as ->. reflexivity. Qed.
Lemma get_string_some missing wrong (o : options) n d v : get_string missing wrong o n (Some d) = Ok v ->
  o n = Some (OStr v) \/ (o n = None /\ v = d).
Proof. unfold get_string, absent. destruct (o n) as [[]|]; intros E; try discriminate; injection E as ->; auto. Qed.
Lemma get_int_none missing wrong (o : options) n v : get_int missing wrong o n None = Ok v -> o n = Some (OInt v).
Proof. unfold get_int, absent. destruct (o n) as [[]|]; intros E; try discriminate. injection E as ->. reflexivity. Qed.

Lemma setup_choices masses prof0 missing wrong o cfg x0 : lg_setup masses prof0 missing wrong o = Ok (cfg, x0) ->
  (lc_mead cfg = Some NoFeedback <-> o "use_mead2020_corrections"%string = Some (OStr "mead2020")) /\
  (lc_mead cfg = Some Feedback <-> o "use_mead2020_corrections"%string = Some (OStr "mead2020_feedback")) /\
  (lc_mead cfg <> None -> hp_hmf x0 = "ST"%string /\ hp_bias x0 = "ST99"%string /\ lc_mdef cfg = "SOVirial"%string /\
     hp_mdef x0 = "SOVirial"%string /\ hp_mdef_par x0 = [] /\ hp_conc x0 = "Duffy08"%string /\ hp_noconv x0 = true) /\
  (lc_mead cfg = None -> o "hmf_model"%string = Some (OStr (hp_hmf x0)) /\ o "bias_model"%string = Some (OStr (hp_bias x0)) /\
     o "mdef_model"%string = Some (OStr (hp_mdef x0)) /\ o "cm_model"%string = Some (OStr (hp_conc x0)) /\
     lc_mdef cfg = hp_mdef x0 /\ hp_noconv x0 = false /\
     dget (hp_mdef_par x0) "overdensity" = (if String.eqb (hp_mdef x0) "SOVirial" then None else Some (lc_overdensity cfg))) /\
  (exists z0 z1 nz, get_double missing wrong o "zmin" None = Ok z0 /\ get_double missing wrong o "zmax" None = Ok z1 /\
     o "nz"%string = Some (OInt nz) /\ (0 <= nz)%Z /\ lc_z cfg = map (linspace z0 z1 (Z.to_nat nz)) (seq 0 (Z.to_nat nz))) /\
  (exists mn mx nm, get_double missing wrong o "log_mass_min" None = Ok mn /\ get_double missing wrong o "log_mass_max" None = Ok mx /\
     o "nmass"%string = Some (OInt nm) /\ nm <> 0%Z /\ lc_mass cfg = masses mn mx ((mx - mn) / IZR nm)).
Proof.
  unfold lg_setup. intros E.
  destruct (get_double missing wrong o "log_mass_min" None) as [mn|] eqn:E1; cbn [bind] in E; [|discriminate E].
  destruct (get_double missing wrong o "log_mass_max" None) as [mx|] eqn:E2; cbn [bind] in E; [|discriminate E].
  destruct (get_int missing wrong o "nmass" None) as [nm|] eqn:E3; cbn [bind] in E; [|discriminate E].
  destruct (Z.eqb_spec nm 0) as [|Nm]; cbn [bind] in E; [discriminate E|].
  destruct (get_double missing wrong o "zmin" None) as [z0|] eqn:E4; cbn [bind] in E; [|discriminate E].
  destruct (get_double missing wrong o "zmax" None) as [z1|] eqn:E5; cbn [bind] in E; [|discriminate E].
  destruct (get_int missing wrong o "nz" None) as [nz|] eqn:E6; cbn [bind] in E; [|discriminate E].
  destruct (Z.ltb_spec nz 0) as [|Nz]; cbn [bind] in E; [discriminate E|].
  destruct (get_int missing wrong o "nk" None) as [nk|] eqn:E7; cbn [bind] in E; [|discriminate E].
  destruct (get_string missing wrong o "profile" (Some "NFW"%string)) as [pr|] eqn:E8; cbn [bind] in E; [|discriminate E].
  destruct (get_string missing wrong o "profile_value_name" (Some "profile_parameters"%string)) as [pv|] eqn:E9; cbn [bind] in E; [|discriminate E].
  destruct (get_string missing wrong o "hmf_model" None) as [hm|] eqn:E10; cbn [bind] in E; [|discriminate E].
  destruct (get_string missing wrong o "mdef_model" None) as [md|] eqn:E11; cbn [bind] in E; [|discriminate E].
  destruct (get_double missing wrong o "overdensity" None) as [od|] eqn:E12; cbn [bind] in E; [|discriminate E].
  destruct (get_string missing wrong o "cm_model" None) as [cm|] eqn:E13; cbn [bind] in E; [|discriminate E].
  destruct (get_double missing wrong o "delta_c" None) as [dc|] eqn:E14; cbn [bind] in E; [|discriminate E].
  destruct (get_string missing wrong o "bias_model" None) as [bm|] eqn:E15; cbn [bind] in E; [|discriminate E].
  destruct (get_string missing wrong o "use_mead2020_corrections" (Some "None"%string)) as [um|] eqn:E16; cbn [bind] in E; [|discriminate E].
  apply get_string_none in E10, E11, E13, E15. apply get_int_none in E3, E6. apply get_string_some in E16.
  injection E as <- <-. cbn [lc_mead lc_mdef lc_z lc_mass lc_overdensity hp_hmf hp_bias hp_mdef hp_mdef_par hp_conc hp_noconv].
  destruct (correction_names um) as [C1 C2].
  split; [|split; [|split; [|split; [|split]]]].
  - rewrite C1. destruct E16 as [E16|[E16 U]]; rewrite E16; split; intros Q; [rewrite Q; reflexivity|congruence|rewrite U in Q; discriminate|discriminate].
  - rewrite C2. destruct E16 as [E16|[E16 U]]; rewrite E16; split; intros Q; [rewrite Q; reflexivity|congruence|rewrite U in Q; discriminate|discriminate].
  - intros Hn. destruct (lg_correction um); [repeat split; reflexivity|congruence].
  - intros ->. repeat (split; [assumption || reflexivity|]). destruct (String.eqb md "SOVirial"); reflexivity.
  - exists z0, z1, nz. auto.
  - exists mn, mx, nm. auto.
Qed.

Lemma profiles dset mset astro growth root sigma8 variance rd :
  setting_law dset -> model_law mset -> (forall b, profile_free (sigma8 b)) -> (forall b, profile_free (variance b)) ->
  let run := lg_execute dset mset astro growth root sigma8 variance rd in
  forall cfg x0 b o, snd (run cfg x0 b) = Ok o ->
  (forall x c m, (m < List.length (hd [] (rd_u (rd b (out_k o)) x c)))%nat -> nth m (hd [] (rd_u (rd b (out_k o)) x c)) 0 <> 0) ->
  (exists ks, b "matter_power_lin"%string "k_h"%string = Some (BArr ks) /\ ks <> [] /\ List.length (out_k o) = lc_nk cfg /\
     (0 < hd 0 ks -> 0 < last ks 0 -> (2 <= lc_nk cfg)%nat ->
        nth 0 (out_k o) 0 = hd 0 ks /\ nth (lc_nk cfg - 1) (out_k o) 0 = last ks 0)) /\
  (forall t u m, In t [out_u_cen o; out_u_sat o] -> In u t -> (m < List.length (hd [] u))%nat -> nth m (hd [] u) 0 = 1).
Proof.
  intros L1 L2 L3 L4 run cfg x0 b o E Hu.
  destruct (exec_ok _ _ _ _ _ _ _ _ L1 L2 L3 L4 _ _ _ _ E) as (i & rs & Hi & Hr & Ht).
  destruct (read_k _ _ _ _ Hi) as (ks & Hk & Nk & Ek & _).
  assert (EK : out_k o = li_k i).
  { unfold lg_tables in Ht. destruct rs; [discriminate|]. injection Ht as <-. reflexivity. }
  rewrite EK in *. split.
  - exists ks. split; [unfold array in Hk; destruct (b "matter_power_lin"%string "k_h"%string) as [[]|]; try discriminate; injection Hk as ->; reflexivity|].
    split; [exact Nk|]. split; [rewrite Ek, map_length, seq_length; reflexivity|].
    intros P0 P1 Hn. rewrite Ek.
    assert (W : forall j, (j < lc_nk cfg)%nat -> nth j (map (logspace (log10 (hd 0 ks)) (log10 (last ks (hd 0 ks))) (lc_nk cfg)) (seq 0 (lc_nk cfg))) 0
       = logspace (log10 (hd 0 ks)) (log10 (last ks (hd 0 ks))) (lc_nk cfg) j).
    { intros j Hj. set (f := logspace _ _ _). rewrite (nth_indep _ 0 (f 0%nat)) by (rewrite map_length, seq_length; exact Hj).
      rewrite map_nth, seq_nth by exact Hj. reflexivity. }
    rewrite !W by lia. unfold logspace, linspace.
    assert (EL : last ks (hd 0 ks) = last ks 0).
    { clear - Nk. destruct ks as [|k ks]; [congruence|]. clear Nk. cbn [hd]. generalize k at 2. revert k. induction ks as [|y ks IH]; intros k d; [reflexivity|].
      change (last (y :: ks) d = last (y :: ks) 0). apply IH. }
    rewrite EL. destruct (Nat.eqb_spec (lc_nk cfg) 1) as [|_]; [lia|]. destruct (Nat.eqb_spec 1 (lc_nk cfg)) as [|_]; [lia|].
    replace (S (lc_nk cfg - 1)) with (lc_nk cfg) by lia. rewrite Nat.eqb_refl. cbn [INR]. rewrite Rmult_0_l, Rplus_0_r.
    split; apply BaseFacts.pow10_log10; assumption.
  - intros t u m It Iu Hm. unfold lg_tables in Ht. destruct rs as [|r0 rs']; [discriminate|].
    apply (f_equal (fun r => match r with Ok v => v | Err _ => o end)) in Ht. cbv beta iota zeta in Ht.
    assert (Z : exists x c, u = lg_normalise (rd_u (rd b (li_k i)) x c)).
    { rewrite <- Ht in It. cbn [out_u_cen out_u_sat] in It.
      destruct It as [<-|[<-|[]]]; apply in_map_iff in Iu as (r & <- & _); eexists; eexists; reflexivity. }
    destruct Z as (x & c & ->). set (v := rd_u (rd b (li_k i)) x c) in *.
    assert (Lm : (m < List.length (hd [] v))%nat).
    { unfold lg_normalise in Hm. destruct v as [|r v]; cbn [hd map] in *; [cbn in Hm; lia|]. rewrite map_length, seq_length in Hm. exact Hm. }
    apply normalised_first; [exact Lm|]. apply Hu, Lm.
Qed.
