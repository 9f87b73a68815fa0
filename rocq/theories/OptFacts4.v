(** Proofs about the option reading: grids, the example file, undocumented requirements. *)
From Coq Require Import ZArith.
From Verif Require Import Base Spec Interp HodModel HodSpec PkModel AddModel PipeModel OptModel OptSpec BaseFacts OptFacts OptFacts2 OptFacts3.
Open Scope R_scope.

(** ** arange *)
Lemma ceil_int n : ceil (IZR n) = n.
Proof.
  unfold ceil. rewrite <- opp_IZR. destruct (archimed (IZR (- n))) as [H1 H2].
  assert (E : up (IZR (- n)) = (- n + 1)%Z).
  { symmetry. apply tech_up; rewrite plus_IZR; lra. }
  rewrite E. lia.
Qed.
Lemma arange_len_div a b n : (0 < n)%Z -> a <> b -> arange_len a b ((b - a) / IZR n) = Z.to_nat n.
Proof.
  intros Hn Hab. unfold arange_len. f_equal. rewrite <- (ceil_int n) at 2. f_equal.
  assert (IZR n <> 0) by (apply not_0_IZR; lia). field. split; lra.
Qed.
Lemma arange_step a s i : arange a s (S i) = arange a s i + s.
Proof. unfold arange. rewrite S_INR. ring. Qed.

Section Hmf.
  Variables (missing wrong : string) (o : options) (h : hmf_config).
  Hypothesis H : setup_hmf_config missing wrong o = Ok h.
  Ltac inv_binds H := repeat match type of H with
    | bind ?r _ = Ok _ => let E := fresh "E" in destruct r eqn:E; [cbn [bind] in H|discriminate H] end.
  Lemma val_num n d x : get_double missing wrong o n (Some d) = Ok x -> x = num (o n) d.
  Proof. unfold get_double, num, absent. destruct (o n) as [[]|]; intros E; try discriminate E; injection E as <-; reflexivity. Qed.
  Lemma val_int n d x : get_int missing wrong o n (Some d) = Ok x -> x = int (o n) d.
  Proof. unfold get_int, int, absent. destruct (o n) as [[]|]; intros E; try discriminate E; injection E as <-; reflexivity. Qed.
  Lemma hmf_values :
    h_min h = num (o "log_mass_min"%string) 9 /\ h_max h = num (o "log_mass_max"%string) 16 /\
    h_dlog10m h = (h_max h - h_min h) / IZR (int (o "nmass"%string) 200) /\
    h_nz h = Z.to_nat (int (o "nz_hmf"%string) 15) /\ (0 <= int (o "nz_hmf"%string) 15)%Z /\
    h_zvec h = linspace (num (o "zmin_hmf"%string) 0) (num (o "zmax_hmf"%string) 3) (h_nz h) /\
    h_nk h = int (o "nk"%string) 100.
  Proof.
    revert H. unfold setup_hmf_config. intros Q. inv_binds Q. injection Q as <-. cbn [h_min h_max h_dlog10m h_nz h_zvec h_nk].
    repeat match goal with
      | E : get_double _ _ _ _ _ = Ok _ |- _ => apply val_num in E
      | E : get_int _ _ _ _ _ = Ok _ |- _ => apply val_int in E
      end. subst.
    match goal with E : (if Z.eqb ?a 0 then _ else _) = Ok _ |- _ => destruct (Z.eqb a 0); [discriminate E|injection E as <-] end.
    match goal with E : (if Z.ltb ?a 0 then _ else _) = Ok _ |- _ => destruct (Z.ltb a 0) eqn:Ez; [discriminate E|injection E as <-] end.
    apply Z.ltb_ge in Ez. repeat split; try reflexivity. exact Ez.
  Qed.
  Let mn := num (o "log_mass_min"%string) 9.
  Let mx := num (o "log_mass_max"%string) 16.
  Let n := int (o "nmass"%string) 200.
  Lemma mass_ok : (0 < n)%Z -> mn < mx ->
    mass_points h = Z.to_nat n /\ mass_grid h 0 = pow10 mn /\
    exists r, 1 < r /\ log_uniform (Z.to_nat n) r (mass_grid h) /\ r * mass_grid h (Z.to_nat n - 1) = pow10 mx /\
      (10 * (mx - mn) <= 3 * IZR n -> r <= 2).
  Proof.
    intros Hn Hm. destruct hmf_values as (E1 & E2 & E3 & _). fold mn in E1. fold mx in E2. fold n in E3.
    assert (HnR : 0 < IZR n) by (apply IZR_lt; exact Hn).
    split; [|split].
    - unfold mass_points. rewrite E3, E1, E2. apply arange_len_div; [exact Hn|lra].
    - unfold mass_grid, arange. rewrite E1. f_equal. simpl. ring.
    - assert (Hs : 0 < h_dlog10m h) by (rewrite E3, E1, E2; apply Rdiv_lt_0_compat; lra).
      exists (pow10 (h_dlog10m h)). split; [rewrite <- pow10_0; apply pow10_lt; exact Hs|]. split; [|split].
      + split; [apply pow10_pos|]. intros i _. unfold mass_grid. rewrite arange_step, pow10_plus. ring.
      + unfold mass_grid. rewrite <- pow10_plus. f_equal. unfold arange. rewrite minus_INR by lia.
        rewrite INR_IZR_INZ, Z2Nat.id by lia. simpl INR. rewrite E3, E1, E2. field. lra.
      + intros Hd. assert (L : h_dlog10m h <= 3 / 10).
        { rewrite E3, E1, E2. apply (Rmult_le_reg_r (IZR n)); [exact HnR|]. unfold Rdiv at 1. rewrite Rmult_assoc, Rinv_l by lra. lra. }
        apply Rle_trans with (pow10 (3 / 10)); [apply pow10_le, L|].
        assert (P : pow10 (3 / 10) ^ 10 = 1000).
        { transitivity (pow10 (3 / 10 + 3 / 10 + 3 / 10 + 3 / 10 + 3 / 10 + 3 / 10 + 3 / 10 + 3 / 10 + 3 / 10 + 3 / 10)).
          - rewrite !pow10_plus. ring.
          - match goal with |- pow10 ?x = _ => replace x with (1 + 1 + 1) by field end.
            rewrite !pow10_plus, pow10_1. ring. }
        destruct (Rle_lt_dec (pow10 (3 / 10)) 2) as [Q|Q]; [exact Q|]. exfalso.
        assert (2 ^ 10 <= pow10 (3 / 10) ^ 10) by (apply pow_incr; lra). lra.
  Qed.
  Lemma redshift_ok : (2 <= int (o "nz_hmf"%string) 15)%Z ->
    num (o "zmin_hmf"%string) 0 < num (o "zmax_hmf"%string) 3 ->
    h_nz h = Z.to_nat (int (o "nz_hmf"%string) 15) /\ increasing (h_nz h) (h_zvec h) /\
    h_zvec h 0%nat = num (o "zmin_hmf"%string) 0 /\ h_zvec h (h_nz h - 1)%nat = num (o "zmax_hmf"%string) 3.
  Proof.
    intros Hz Hlt. destruct hmf_values as (_ & _ & _ & E4 & _ & E5 & _).
    assert (N : (2 <= h_nz h)%nat) by (rewrite E4; lia).
    split; [exact E4|]. rewrite E5. split; [apply linspace_incr; assumption|].
    split; [apply linspace_first'; lia|apply linspace_last; exact N].
  Qed.
  Lemma wavenumber_ok nin k_in : (2 <= int (o "nk"%string) 100)%Z -> (2 <= nin)%nat -> 0 < k_in 0%nat -> k_in 0%nat < k_in (nin - 1)%nat ->
    let nk := Z.to_nat (int (o "nk"%string) 100) in
    k_points h = Ok nk /\ increasing nk (k_grid h nin k_in) /\ k_grid h nin k_in 0%nat = k_in 0%nat /\
    k_grid h nin k_in (nk - 1)%nat = k_in (nin - 1)%nat /\ exists r, 1 < r /\ log_uniform nk r (k_grid h nin k_in).
  Proof.
    intros Hk Hn H0 H1 nk. destruct hmf_values as (_ & _ & _ & _ & _ & _ & E6).
    assert (N : (2 <= nk)%nat) by (unfold nk; lia).
    assert (L : log10 (k_in 0%nat) < log10 (k_in (nin - 1)%nat)) by (apply log10_lt; assumption).
    unfold k_points, k_grid. rewrite E6. fold nk.
    assert (Z.ltb (int (o "nk"%string) 100) 0 = false) as -> by (apply Z.ltb_ge; lia).
    assert (I : increasing nk (logspace (log10 (k_in 0%nat)) (log10 (k_in (nin - 1)%nat)) nk)).
    { intros i Hi. apply pow10_lt. apply linspace_incr; assumption. }
    split; [reflexivity|]. split; [exact I|]. split; [|split].
    - rewrite logspace_first by lia. apply pow10_log10, H0.
    - rewrite logspace_last by lia. apply pow10_log10. lra.
    - exists (pow10 ((log10 (k_in (nin - 1)%nat) - log10 (k_in 0%nat)) / INR (nk - 1))). split.
      + rewrite <- pow10_0. apply pow10_lt. apply Rdiv_lt_0_compat; [lra|]. apply lt_0_INR. lia.
      + split; [apply pow10_pos|]. intros i Hi. unfold logspace. rewrite <- pow10_plus. f_equal.
        rewrite <- (linspace_step _ _ nk i N Hi). ring.
  Qed.
End Hmf.

(** ** Names never looked up *)
Section Names.
  Variables (missing wrong : string) (o : options) (d : bool).
  Lemma ignored o' : (forall n, In n names_read -> o n = o' n) -> setup missing wrong o d = setup missing wrong o' d.
  Proof. intros H. apply ag_setup. intros n Hn. left. apply H, Hn. Qed.

  Lemma mem_in n l : mem n l = false -> ~ In n l.
  Proof. intros H I. unfold mem in H. assert (existsb (String.eqb n) l = true) by (apply existsb_exists; exists n; split; [exact I|apply String.eqb_refl]). congruence. Qed.
  Lemma ignored_set n v : ~ In n names_read -> setup missing wrong (oset o n v) d = setup missing wrong o d.
  Proof.
    intros Hn. symmetry. apply ignored. intros m Hm. unfold oset. destruct (String.eqb_spec m n) as [->|]; [|reflexivity].
    exfalso. exact (Hn Hm).
  Qed.
End Names.

(** ** The example file *)
Lemma example_ok missing wrong d : missing = "ValueError"%string ->
  exists m, setup missing wrong example_ini d = Ok m /\
    g_mode (config_of m) = None /\ q_ingr (m_request m) = None /\ g_nbins (config_of m) = 2%nat /\
    g_mm (config_of m) = true /\ g_split (config_of m) = true.
Proof. intros ->. eexists. split; [vm_compute; reflexivity|]. vm_compute. repeat split. Qed.

(** ** Options of samples that are not asked for *)
Lemma b_flag_iff o n : b_flag o n = true <-> flag o n.
Proof. unfold b_flag, flag. destruct (o n) as [[| |[]| |]|]; split; intros H; try reflexivity; try discriminate H. Qed.
Lemma b_galaxies_iff o : b_galaxies o = true <-> wants_galaxies o.
Proof. unfold b_galaxies, wants_galaxies. rewrite Bool.orb_true_iff, !b_flag_iff. tauto. Qed.
Lemma b_alignment_iff o : b_alignment o = true <-> wants_alignment o.
Proof. unfold b_alignment, wants_alignment. rewrite !Bool.orb_true_iff, !b_flag_iff. tauto. Qed.
Section Needed.
  Variables (missing wrong : string) (o o' : options).
  Hypothesis H : forall n, In n (names_needed o) -> o n = o' n.
  Let always n : mem n (map fst always_read) = true -> o n = o' n.
  Proof. intros Hn. apply H. unfold names_needed. rewrite !in_app_iff. left. apply mem_In, Hn. Qed.
  Ltac al := match goal with |- context [o ?n] => rewrite (always n) by reflexivity end.
  Lemma need_req : setup_pipeline_parameters missing wrong o = setup_pipeline_parameters missing wrong o'.
  Proof. unfold setup_pipeline_parameters, get_bool, string_or_none, get_string. repeat al. reflexivity. Qed.
  Lemma need_hmf : setup_hmf_config missing wrong o = setup_hmf_config missing wrong o'.
  Proof. unfold setup_hmf_config, get_double, get_int, get_string. repeat al. reflexivity. Qed.
  Lemma settings_same suf : (forall n, In n (sample_needed suf) -> o n = o' n) ->
    read_settings missing wrong o suf = read_settings missing wrong o' suf.
  Proof.
    intros S. unfold read_settings, has_value, get_array, get_count, get_string.
    unfold sample_needed, sample_names, limits in S. cbn [map fst] in S.
    rewrite !(S ("observables_file_" ++ suf)%string) by (simpl; tauto).
    rewrite !(S ("log10_obs_min_" ++ suf)%string) by (simpl; tauto).
    rewrite !(S ("log10_obs_max_" ++ suf)%string) by (simpl; tauto).
    rewrite !(S ("zmin_" ++ suf)%string) by (simpl; tauto).
    rewrite !(S ("zmax_" ++ suf)%string) by (simpl; tauto).
    rewrite !(S ("nz_" ++ suf)%string) by (simpl; tauto).
    rewrite !(S ("nobs_" ++ suf)%string) by (simpl; tauto).
    rewrite !(S "observable_h_unit"%string) by (simpl; tauto). reflexivity.
  Qed.
  Lemma need_setup d : setup missing wrong o d = setup missing wrong o' d.
  Proof.
    unfold setup. rewrite <- need_req, <- need_hmf.
    destruct (setup_pipeline_parameters missing wrong o) as [q|] eqn:Eq; [|reflexivity]. cbn [bind].
    pose proof (request_flags _ _ _ _ Eq) as F. pose proof (request_galaxy _ _ F) as G. pose proof (request_alignment _ _ F) as Al.
    pose proof (request_mode _ _ _ _ Eq) as Mo.
    destruct F as (_ & _ & _ & _ & _ & _ & _ & Sp & _).
    assert (E : setup_hod missing wrong o (q_galaxy q) (q_alignment q) (q_split q) =
                setup_hod missing wrong o' (q_galaxy q) (q_alignment q) (q_split q)).
    { unfold setup_hod, read_pop.
      assert (Eh : q_galaxy q = true -> read_settings missing wrong o "hod" = read_settings missing wrong o' "hod").
      { intros Q. apply settings_same. intros n Hn. apply H. unfold names_needed. rewrite !in_app_iff. right. left.
        assert (b_galaxies o = true) as -> by (apply b_galaxies_iff, G, Q). exact Hn. }
      assert (Ei : q_alignment q = true -> forall n, In n (alignment_needed (q_split q)) -> o n = o' n).
      { intros Q n Hn. apply H. unfold names_needed. rewrite !in_app_iff. right. right. left.
        assert (b_alignment o = true) as -> by (apply b_alignment_iff, Al, Q).
        replace (b_flag o "split_ia") with (q_split q); [exact Hn|].
        apply Bool.eq_iff_eq_true. rewrite Sp. symmetry. apply b_flag_iff. }
      assert (Es : b_flag o "save_observable" = true -> forall n, In n (("observable_section_name"%string) :: sample_needed "smf") -> o n = o' n).
      { intros Q n Hn. apply H. unfold names_needed. rewrite !in_app_iff, Q. right. right. right. left. exact Hn. }
      assert (N : read_ia_names missing wrong o (q_alignment q) (q_split q) = read_ia_names missing wrong o' (q_alignment q) (q_split q)).
      { unfold read_ia_names, read_pop, get_string. destruct (q_alignment q); [|reflexivity]. specialize (Ei eq_refl).
        destruct (q_split q); unfold alignment_needed in Ei;
          repeat match goal with |- context [o ?n] => rewrite (Ei n) by (apply mem_In; reflexivity) end; reflexivity. }
      rewrite N. clear N. unfold get_string, get_bool.
      rewrite (always "hod_section_name"), (always "values_name"), (always "output_suffix"), (always "hod_model"), (always "save_observable") by reflexivity.
      destruct (q_galaxy q); [rewrite (Eh eq_refl)|]; clear Eh;
      (destruct (q_alignment q); [specialize (Ei eq_refl); destruct (q_split q);
         [rewrite (settings_same "ia_1"), (settings_same "ia_2") by (intros n Hn; apply Ei; unfold alignment_needed; rewrite !in_app_iff; tauto)
         |rewrite (settings_same "ia") by (intros n Hn; apply Ei; unfold alignment_needed; rewrite !in_app_iff; tauto)]|]);
      (destruct (b_flag o "save_observable") eqn:Ef;
         [specialize (Es eq_refl); rewrite (settings_same "smf") by (intros n Hn; apply Es; right; exact Hn);
          rewrite (Es "observable_section_name"%string) by (left; reflexivity); reflexivity
         |unfold b_flag in Ef; rewrite (always "save_observable"%string eq_refl) in Ef;
          destruct (o' "save_observable"%string) as [[| |[]| |]|]; [..|]; first [discriminate Ef|reflexivity]]). }
    rewrite <- E. destruct (setup_hod missing wrong o (q_galaxy q) (q_alignment q) (q_split q)); [|reflexivity]. cbn [bind].
    destruct (setup_hmf_config missing wrong o); [|reflexivity]. cbn [bind].
    assert (U : read_update missing o d (mode_name (q_mode q)) = read_update missing o' d (mode_name (q_mode q))).
    { unfold read_update. destruct (mode_name (q_mode q)) as [m|]; [|reflexivity].
      destruct (String.eqb_spec m "bnl") as [->|]; [|reflexivity]. rewrite (H "update_bnl"%string); [reflexivity|].
      unfold names_needed. rewrite !in_app_iff. right. right. right. right. unfold b_bnl.
      rewrite (proj1 Mo eq_refl). left. reflexivity. }
    rewrite U. reflexivity.
  Qed.
End Needed.

(** ** Undocumented requirements *)
Definition example_plus (split : bool) : options :=
  oset (oset (oset (oset (oset (oset (oset example_ini "hmcode_ingredients" (OStr "None")) "nonlinear_mode" (OStr "None")) "split_ia" (OBool split))
    "nobs_hod" (OInt 100)) "nobs_ia" (OInt 100)) "nobs_ia_1" (OInt 100)) "nobs_ia_2" (OInt 100).
Definition without (o : options) (n : string) : options := fun m => if String.eqb m n then None else o m.
Lemma wrong_defaults missing wrong d n v : dget documented_wrongly n = Some v ->
  exists o m, o n = None /\ setup missing wrong (oset o n v) d = Ok m /\ setup missing wrong o d = Err missing.
Proof.
  unfold documented_wrongly. cbn [dget].
  repeat (match goal with |- (if String.eqb ?a ?b then _ else _) = _ -> _ => destruct (String.eqb_spec a b) as [->|];
    [intros Q; injection Q as <-;
     first [exists (without (example_plus true) b); eexists; split; [reflexivity|split; [vm_compute; reflexivity|vm_compute; reflexivity]]
           |exists (without (example_plus false) b); eexists; split; [reflexivity|split; [vm_compute; reflexivity|vm_compute; reflexivity]]]|] end).
  discriminate.
Qed.

Lemma documented_all_accepted missing wrong o o' d : written_out o o' -> setup missing wrong o d = setup missing wrong o' d.
Proof. intros W. apply ag_setup. intros n Hn. destruct (W n Hn) as [E|[E D]]; auto. Qed.
Lemma documented_none_accepted wrong o o' d : written_out_none o o' ->
  setup "ValueError" wrong o d = setup "ValueError" wrong o' d.
Proof.
  intros W. apply ag_setup. intros n Hn. destruct (W n Hn) as [E|[E [D|[D1 D2]]]]; [left; exact E|right; split; [exact E|left; exact D]|].
  right. split; [exact E|]. right. split; [exact D1|]. split; [exact D2|reflexivity].
Qed.

(** ** Examples *)
Lemma ex_C92 : setup "ValueError" "BlockWrongValueType" example_ini true =
  setup "ValueError" "BlockWrongValueType" (oset (oset example_ini "output_suffix" (OStr "")) "nonlinear_mode" (OStr "None")) true /\
  written_out_none example_ini (oset (oset example_ini "output_suffix" (OStr "")) "nonlinear_mode" (OStr "None")) /\
  example_ini "output_suffix"%string = None.
Proof.
  assert (W : written_out_none example_ini (oset (oset example_ini "output_suffix" (OStr "")) "nonlinear_mode" (OStr "None"))).
  { intros n _. unfold oset. destruct (String.eqb_spec n "nonlinear_mode") as [->|].
    - right. split; [reflexivity|]. right. split; [left; reflexivity|reflexivity].
    - destruct (String.eqb_spec n "output_suffix") as [->|]; [|left; reflexivity].
      right. split; [reflexivity|]. left. eexists. split; reflexivity. }
  split; [|split; [exact W|reflexivity]]. exact (documented_none_accepted _ _ _ _ W).
Qed.
Lemma example_mass d m : setup "ValueError" "x" example_ini d = Ok m ->
  mass_points (m_hmf m) = 200%nat /\ mass_grid (m_hmf m) 0 = pow10 10.
Proof.
  intros H. apply setup_parts in H as (_ & H & _). destruct (mass_ok _ _ _ _ H) as (A & B & _); [reflexivity|cbn; lra|].
  split; [exact A|exact B].
Qed.
Lemma needed_witness : ~ In "nz_ia"%string (names_needed example_ini) /\ In "nz_ia_1"%string (names_needed example_ini).
Proof. split; [apply mem_in; vm_compute; reflexivity|apply mem_In; vm_compute; reflexivity]. Qed.
Lemma none_default_refuted missing wrong d : missing <> "ValueError"%string ->
  forall o, o "nonlinear_mode"%string = None -> ~ exists m, setup missing wrong o d = Ok m.
Proof.
  intros M o E S. apply setup_iff in S. destruct S as (_ & _ & [C|[_ C]] & _); [exact (M C)|exact (C E)].
Qed.
Lemma example_ignored :
  Forall (fun n => example_ini n <> None /\ ~ In n names_read) ["bnl"; "mead2020_correction"; "cm_model"; "profile"]%string /\
  forall missing wrong darkemu, missing = "ValueError"%string -> exists m, setup missing wrong example_ini darkemu = Ok m /\
    g_mode (config_of m) = None /\ q_ingr (m_request m) = None.
Proof.
  split; [repeat constructor; try discriminate; apply mem_in; reflexivity|].
  intros missing wrong d M. destruct (example_ok missing wrong d M) as (m & E & A & B & _). exists m. auto.
Qed.
