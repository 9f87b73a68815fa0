(** C48 to C54, C68, C69: the CosmoSIS pipeline module.  Vocabulary: PipeSpec. *)
From Coq Require Import Decimal DecimalString Ascii.
From Verif Require Import Base Spec Quad Interp BaseFacts QuadFacts InterpFacts HodModel PkModel AddModel AddSpec AddFacts AddFacts2
  PipeModel PipeSpec PipeFacts PipeFacts2 PipeFacts3 PipeFacts4 PipeFacts5 PipeFacts6 PipeExample.
Open Scope string_scope.

(** C48 *)
Theorem C48_first_population : forall b pop central satellite d, align_params b pop central satellite = Ok d ->
  population b pop central satellite d.
Proof. exact align_params_spec. Qed.
Print Assumptions C48_first_population.

Theorem C48_second_population : forall b pop central satellite pop2 d d2, align_params b pop central satellite = Ok d ->
  align_params_2 b pop2 central satellite d = Ok d2 -> population b pop2 central satellite d2.
Proof. exact align_params_2_spec. Qed.
Print Assumptions C48_second_population.

Lemma align_ok b pop central satellite : let sec := "intrinsic_alignment_parameters" ++ pop in
  (exists d, align_params b pop central satellite = Ok d) <->
  (central = "halo_mass" -> b sec "beta_sat" <> None /\ b sec "M_pivot" <> None) /\
  (satellite = "halo_mass" -> b sec "beta" <> None /\ b sec "M_pivot" <> None) /\
  b sec "gamma_1h_radial_slope" <> None /\ b sec "gamma_1h_amplitude" <> None /\ b sec "gamma_2h_amplitude" <> None.
Proof.
  intro sec. pose proof (gated_ok b pop central satellite []) as G. unfold align_params, align_gammas, bget. unfold ia_section in *. fold sec in G |- *.
  destruct (align_gated b pop central satellite []) as [d0|e]; cbn [bind].
  - destruct (proj1 G (ex_intro _ d0 eq_refl)) as [G1 G2].
    destruct (b sec "gamma_1h_radial_slope"), (b sec "gamma_1h_amplitude"), (b sec "gamma_2h_amplitude"); cbn [bind];
      (split; [intros [d H]; first [discriminate H|repeat split; try congruence; try (now apply G1); now apply G2]|]); intros (_ & _ & A & B & C);
      try congruence; eexists; reflexivity.
  - split; [intros [d H]; discriminate|]. intros (A & B & _). destruct (proj2 G (conj A B)) as [d H]. discriminate.
Qed.
Theorem C48_required : forall b pop central satellite, let sec := "intrinsic_alignment_parameters" ++ pop in
  (exists d, align_params b pop central satellite = Ok d) <->
  (central = "halo_mass" -> b sec "beta_sat" <> None /\ b sec "M_pivot" <> None) /\
  (satellite = "halo_mass" -> b sec "beta" <> None /\ b sec "M_pivot" <> None) /\
  b sec "gamma_1h_radial_slope" <> None /\ b sec "gamma_1h_amplitude" <> None /\ b sec "gamma_2h_amplitude" <> None.
Proof. exact align_ok. Qed.
Print Assumptions C48_required.

(** The options gate the parameters of the other galaxy type. *)
Definition ia_block : block := fun s n => if String.eqb n "beta" then Some (VNum 2) else if String.eqb n "beta_sat" then Some (VNum 3) else Some (VNum 1).
Lemma swapped : exists d, align_params ia_block "" "halo_mass" "constant" = Ok d /\
  dget d "beta_cen" = Some None /\ dget d "mpivot_cen" = Some None /\ dget d "beta_sat" = Some (Some (VNum 3)).
Proof. eexists. split; [reflexivity|]. repeat split. Qed.
Theorem C48_matching_refuted : exists d, align_params ia_block "" "halo_mass" "constant" = Ok d /\
  dget d "beta_cen" = Some None /\ dget d "mpivot_cen" = Some None /\ dget d "beta_sat" = Some (Some (VNum 3)).
Proof. exact swapped. Qed.
Print Assumptions C48_matching_refuted.

Example C48_case : exists d d2, align_params ia_block "_red" "halo_mass" "halo_mass" = Ok d /\
  align_params_2 ia_block "_blue" "halo_mass" "halo_mass" d = Ok d2 /\ dget d2 "beta_cen" = Some (Some (VNum 2)).
Proof. eexists _, _. split; [reflexivity|]. split; reflexivity. Qed.

(** C49 *)
Theorem C49_value_of_first : forall (X : ext) b q q2 h mode comp v, mode <> "mm" ->
  answer (request_split X b q q2) h mode comp = Ok v ->
  exists v1, answer (request_single X b q) h mode comp = Ok v1 /\ forall nb i j, r_val v nb i j = r_val v1 nb i j.
Proof. exact split_value. Qed.
Print Assumptions C49_value_of_first.

Theorem C49_second_has_no_effect : forall (X : ext) c b st st1 st2 lg1 lg2 ia2 pop2,
  execute X c b (st, []) = ((st1, lg1), Ok tt) -> execute X (with_second c ia2 pop2) b (st, []) = ((st2, lg2), Ok tt) ->
  p_power X st1 = p_power X st2 /\
  forall w f, In w lg1 -> w_val w = Some f ->
  exists w2 f2, In w2 lg2 /\ place w2 = place w /\ w_val w2 = Some f2 /\ forall x y, f2 x y = f x y.
Proof. exact second_ignored. Qed.
Print Assumptions C49_second_has_no_effect.

Example C49_case : exists st1 lg1 st2 lg2, execute toy_ext (toy_config 4) (toy_block "a") (toy_start, []) = ((st1, lg1), Ok tt) /\
  execute toy_ext (with_second (toy_config 4) [("nobs", SNum 9)] "_green") (toy_block "a") (toy_start, []) = ((st2, lg2), Ok tt).
Proof.
  destruct (toy_succeeds 4 "a" toy_start eq_refl) as (st1 & lg1 & E). exists st1, lg1.
  assert (E2 : snd (execute toy_ext (with_second (toy_config 4) [("nobs", SNum 9)] "_green") (toy_block "a") (toy_start, [])) = Ok tt) by reflexivity.
  destruct (execute toy_ext (with_second (toy_config 4) [("nobs", SNum 9)] "_green") (toy_block "a") (toy_start, [])) as [[st2 lg2] r].
  cbn in E2. subst r. exists st2, lg2. split; [exact E|reflexivity].
Qed.

(** C50 *)
Theorem C50_schedule : forall (X : ext) c st l, g_mode c = Some "bnl" -> history X c st l -> g_update_bnl c <> 0%nat ->
  p_calls X st = List.length l /\
  forall n b t, nth_error l n = Some (b, t) ->
    exists b0, nth_error l (n / g_update_bnl c * g_update_bnl c) = Some (b0, t) /\ x_compute_bnl X b0 = Ok t.
Proof. intros X c st l E H N. destruct (schedule X c st l E H N) as (A & B & _). exact (conj A B). Qed.
Print Assumptions C50_schedule.

Theorem C50_every_call_is_a_step : forall (X : ext) c st l b lg, g_mode c = Some "bnl" -> history X c st l ->
  exists l', history X c (fst (fst (execute X c b (st, lg)))) l' /\ (l' = l \/ exists t, l' = (l ++ [(b, t)])%list).
Proof. exact history_total. Qed.
Print Assumptions C50_every_call_is_a_step.

Theorem C50_zero_period : forall (X : ext) c b st, g_update_bnl c = 0%nat -> g_mode c = Some "bnl" -> forall lg,
  snd (execute X c b (st, lg)) = match x_read_base X b with Ok _ => Err "ZeroDivisionError" | Err e => Err e end.
Proof. exact schedule_zero. Qed.
Print Assumptions C50_zero_period.

(** Four calls with period 3: the first and the fourth compute. *)
Example C50_case : exists st, history toy_ext (toy_config 4) st
  [(toy_block "x", 1%nat); (toy_block "yy", 1%nat); (toy_block "zzz", 1%nat); (toy_block "wwww", 4%nat)].
Proof.
  set (c := toy_config 4).
  assert (H0 : history toy_ext c toy_start []) by constructor.
  assert (S1 : exists s1, fst (fst (execute toy_ext c (toy_block "x") (toy_start, []))) = s1 /\ p_calls toy_ext s1 = 1%nat /\ p_cached toy_ext s1 = Some 1%nat)
    by (eexists; split; [reflexivity|split; reflexivity]).
  destruct S1 as (s1 & E1 & C1 & T1).
  assert (H1 : history toy_ext c s1 [(toy_block "x", 1%nat)]).
  { destruct (execute toy_ext c (toy_block "x") (toy_start, [])) as [[s l] r] eqn:E. cbn in E1. subst s.
    apply (history_used toy_ext c _ _ _ [] 1%nat _ _ _ H0 E); [now exists 1%R|reflexivity]. }
  clear E1 H0.
  assert (G : forall st l n t name, history toy_ext c st l -> p_calls toy_ext st = n -> p_cached toy_ext st = Some t ->
     exists st', p_calls toy_ext st' = S n /\ p_cached toy_ext st' = Some (if Nat.eqb (n mod 3) 0 then String.length name else t) /\
       history toy_ext c st' (l ++ [(toy_block name, if Nat.eqb (n mod 3) 0 then String.length name else t)])).
  { intros st l n t name H N T. destruct (execute toy_ext c (toy_block name) (st, [])) as [[s lg] r] eqn:E.
    pose proof (execute_cache toy_ext c (toy_block name) st [] eq_refl) as K. rewrite E in K. cbv zeta in K.
    change (x_read_base toy_ext (toy_block name)) with (Ok 1%R) in K. cbv iota in K. cbn [fst] in K.
    destruct st as [n0 t0 o]. cbn in N, T. subst n0 t0.
    assert (B : bnl_step toy_ext c (toy_block name) (Build_pst toy_ext n (Some t) o, [])
       = ((Build_pst toy_ext (S n) (Some (if Nat.eqb (n mod 3) 0 then String.length name else t)) o, []),
          Ok (if Nat.eqb (n mod 3) 0 then String.length name else t))).
    { unfold bnl_step, bindM, get, lift, put, ret. cbn [g_update_bnl c toy_config fst snd p_calls p_cached p_power]. change (Nat.eqb 3 0) with false. cbv iota.
      destruct (Nat.eqb (n mod 3) 0); reflexivity. }
    destruct K as [K1 K2]. exists s. split; [exact (eq_trans K1 (f_equal (fun x => p_calls toy_ext (fst (fst x))) B))|].
    split; [exact (eq_trans K2 (f_equal (fun x => p_cached toy_ext (fst (fst x))) B))|].
    apply (history_used toy_ext c _ _ _ l _ _ _ _ H E); [now exists 1%R|exact (f_equal snd B)]. }
  destruct (G _ _ _ _ "yy" H1 C1 T1) as (s2 & C2 & T2 & H2). destruct (G _ _ _ _ "zzz" H2 C2 T2) as (s3 & C3 & T3 & H3).
  destruct (G _ _ _ _ "wwww" H3 C3 T3) as (s4 & C4 & T4 & H4). exists s4. exact H4.
Qed.

(** C51 *)
Lemma name_facts base bins nb : (bins = 1%nat -> bin_name base bins nb = base) /\
  (bins <> 1%nat -> bin_name base bins nb = base ++ "_" ++ NilEmpty.string_of_uint (Nat.to_uint (S nb))) /\ base ++ suffix bins nb = bin_name base bins nb.
Proof. split; [|split; [|apply suffix_name]]; unfold bin_name; destruct (Nat.eq_dec bins 1); congruence. Qed.
Theorem C51_suffix : forall base bins nb, (bins = 1%nat -> bin_name base bins nb = base) /\
  (bins <> 1%nat -> bin_name base bins nb = base ++ "_" ++ NilEmpty.string_of_uint (Nat.to_uint (S nb))) /\ base ++ suffix bins nb = bin_name base bins nb.
Proof. exact name_facts. Qed.
Print Assumptions C51_suffix.

Theorem C51_distinct_bins : forall base base' bins nb nb', (nb < bins)%nat -> (nb' < bins)%nat ->
  bin_name base bins nb = bin_name base' bins nb' -> base = base' /\ nb = nb'.
Proof. exact bin_name_same. Qed.
Print Assumptions C51_distinct_bins.

Theorem C51_distinct_quantities : forall base base' bins bins' nb nb', unnumbered base -> unnumbered base' ->
  (nb < bins)%nat -> (nb' < bins')%nat -> bin_name base bins nb = bin_name base' bins' nb' -> base = base' /\ nb = nb'.
Proof. exact bin_name_inj. Qed.
Print Assumptions C51_distinct_quantities.

Theorem C51_run_writes_each_place_once : forall (X : ext) c b st st' lg, execute X c b (st, []) = ((st', lg), Ok tt) ->
  free_section (g_hod_section c) -> free_section (g_hod_section_ia c) -> free_section (g_obs_section c) ->
  g_hod_section c <> g_hod_section_ia c -> g_hod_section c <> g_obs_section c -> g_hod_section_ia c <> g_obs_section c ->
  NoDup (map place lg).
Proof. exact no_collision. Qed.
Print Assumptions C51_run_writes_each_place_once.

Example C51_case : bin_name "galaxy_power" 12 10 = "galaxy_power_11" /\
  (exists st' lg, execute toy_ext (toy_config 4) (toy_block "a") (toy_start, []) = ((st', lg), Ok tt)) /\
  free_section (g_hod_section (toy_config 4)) /\ free_section (g_hod_section_ia (toy_config 4)) /\ free_section (g_obs_section (toy_config 4)).
Proof. split; [reflexivity|]. split; [now apply toy_succeeds|apply toy_sections]. Qed.

(** C52 *)
Theorem C52_single_bin_covers : forall h r h' mm, (r < List.length h)%nat -> setup_hod_settings_mm h r = Ok (h', mm) ->
  (forall q, (q < List.length h)%nat -> hget h' q = hget h q) /\ mm = List.length h /\
  dget (hget h' mm) "nobs" = Some (SNum 100) /\
  dget (hget h' mm) "observables_file" = dget (hget h r) "observables_file" /\
  dget (hget h' mm) "observable_h_unit" = dget (hget h r) "observable_h_unit" /\
  (dget (hget h r) "observables_file" = Some SNone ->
     singleton_of least (hget h r) "obs_min" (dget (hget h' mm) "obs_min") /\
     singleton_of greatest (hget h r) "obs_max" (dget (hget h' mm) "obs_max") /\
     singleton_of least (hget h r) "zmin" (dget (hget h' mm) "zmin") /\
     singleton_of greatest (hget h r) "zmax" (dget (hget h' mm) "zmax") /\
     dget (hget h' mm) "nz" = Some (SNum 15)).
Proof. exact settings_mm_spec. Qed.
Print Assumptions C52_single_bin_covers.

Theorem C52_limits_accepted : forall a0 a b0 b c0 c d0 d nz nobs u,
  exists h mm, setup_hod_galaxy (setup_hod_settings None (a0 :: a) (b0 :: b) (c0 :: c) (d0 :: d) nz nobs u) = Ok (h, mm, S (List.length a)).
Proof. exact setup_limits. Qed.
Print Assumptions C52_limits_accepted.

Theorem C52_observables_file_refuted : forall f a b c d nz nobs u,
  setup_hod_galaxy (setup_hod_settings (Some f) a b c d nz nobs u) = Err "KeyError".
Proof. exact setup_file_keyerror. Qed.
Print Assumptions C52_observables_file_refuted.

Example C52_case : let d := setup_hod_settings None [9; 10]%R [10; 11]%R [0; 1]%R [1; 2]%R 15 100 "1/h^2" in
  exists h', setup_hod_settings_mm [d] 0 = Ok (h', 1%nat) /\ dget (hget [d] 0) "observables_file" = Some SNone.
Proof. eexists. split; reflexivity. Qed.

(** C53 *)
Theorem C53_positive : forall n k p q, (0 < log_linear_k n k p q)%R.
Proof. exact log_linear_pos. Qed.
Print Assumptions C53_positive.

Theorem C53_nodes : forall n (k p : A1) i, (2 <= n)%nat -> (forall i, (i < n)%nat -> (0 < k i)%R) -> increasing n k ->
  (i < n)%nat -> (0 < p i)%R -> log_linear_k n k p (k i) = p i.
Proof. exact log_linear_node. Qed.
Print Assumptions C53_nodes.

Theorem C53_power_laws : forall n (k p : A1) A s q, (2 <= n)%nat -> (forall i, (i < n)%nat -> (0 < k i)%R) -> increasing n k ->
  (0 < A)%R -> (0 < q)%R -> (forall i, (i < n)%nat -> p i = (A * Rpower (k i) s)%R) -> log_linear_k n k p q = (A * Rpower q s)%R.
Proof. exact log_linear_power. Qed.
Print Assumptions C53_power_laws.

Theorem C53_within_range : forall n (k p : A1) lo hi q, (2 <= n)%nat -> (forall i, (i < n)%nat -> (0 < k i)%R) -> increasing n k ->
  (0 < lo)%R -> (forall i, (i < n)%nat -> (lo <= p i <= hi)%R) -> (k 0%nat <= q <= k (n - 1)%nat)%R ->
  (lo <= log_linear_k n k p q <= hi)%R.
Proof. exact log_linear_hull. Qed.
Print Assumptions C53_within_range.

Example C53_case : log_linear_k 3 (fun i => INR i + 1)%R (fun i => 2 * Rpower (INR i + 1) (-1))%R 10 = (2 * Rpower 10 (-1))%R.
Proof.
  apply log_linear_power; try lra; [lia| |intros i Hi; rewrite S_INR; lra|reflexivity]. intros i Hi. pose proof (pos_INR i). lra.
Qed.

(** C54 *)
Theorem C54_hod_collection : forall b sec model nbins,
  (forall d, hod_params b sec model nbins = Ok d ->
     required_hod model <> [] /\
     (forall p, In p (required_hod model) -> collected b sec model nbins p (dget d p)) /\
     dget d "A_cen" = Some (match b sec "A_cen" with Some v => HVal v | None => HNone end) /\
     dget d "A_sat" = Some (match b sec "A_sat" with Some v => HVal v | None => HNone end)) /\
  (required_hod model = [] -> hod_params b sec model nbins = Err "KeyError") /\
  (forall name, hod_needs model nbins name -> b sec name = None -> hod_params b sec model nbins = Err "Exception") /\
  (required_hod model <> [] -> (forall name, hod_needs model nbins name -> b sec name <> None) ->
     exists d, hod_params b sec model nbins = Ok d).
Proof. exact hod_params_spec. Qed.
Print Assumptions C54_hod_collection.

Theorem C54_poisson_collection : forall miss b ty,
  (forall d, poisson_params miss b ty = Ok d -> required_poisson ty <> [] /\
     forall p, In p (required_poisson ty) -> exists v, b "pk_parameters" p = Some v /\ dget d p = Some (as_param v)) /\
  (required_poisson ty = [] -> poisson_params miss b ty = Err "KeyError") /\
  (forall p, In p (required_poisson ty) -> b "pk_parameters" p = None -> exists e, poisson_params miss b ty = Err e) /\
  (required_poisson ty <> [] -> (forall p, In p (required_poisson ty) -> exists v, b "pk_parameters" p = Some v /\ scalar v) ->
     exists d, poisson_params miss b ty = Ok d).
Proof. exact poisson_params_spec. Qed.
Print Assumptions C54_poisson_collection.

Theorem C54_aborts_before_output : forall (X : ext) c b st lg, orb (galaxy c) (alignment c) = true ->
  (exists p, In p (required_poisson (g_poisson c)) /\ b "pk_parameters" p = None) \/
  (exists n, hod_needs (g_hod_model c) (g_nbins c) n /\ b (g_hod_values c) n = None) \/
  required_poisson (g_poisson c) = [] \/ required_hod (g_hod_model c) = [] ->
  exists st' e, execute X c b (st, lg) = ((st', lg), Err e) /\ p_power X st' = p_power X st.
Proof. exact missing_aborts. Qed.
Print Assumptions C54_aborts_before_output.

(** The default poisson_type '' names no model. *)
Lemma default_poisson miss b : poisson_params miss b "" = Err "KeyError". Proof. reflexivity. Qed.
Theorem C54_default_poisson_refuted : forall miss b, poisson_params miss b "" = Err "KeyError".
Proof. exact default_poisson. Qed.
Print Assumptions C54_default_poisson_refuted.
(** Without galaxy spectra the number of bins is 0 and per-bin parameters are never looked at. *)
Lemma no_bins : exists d, hod_params (fun _ _ => None) "hod_parameters" "Zheng" 0 = Ok d /\ dget d "log10_Mmin" = Some (HArr []).
Proof. eexists. split; reflexivity. Qed.
Theorem C54_alignment_only_refuted : exists d, hod_params (fun _ _ => None) "hod_parameters" "Zheng" 0 = Ok d /\ dget d "log10_Mmin" = Some (HArr []).
Proof. exact no_bins. Qed.
Print Assumptions C54_alignment_only_refuted.

Example C54_case : hod_needs "Zheng" 3 "sigma_2" /\ hod_needs "Cacciato" 3 "b0" /\
  exists d, hod_params (fun _ n => if String.eqb n "A_cen" then None else Some (VStr n)) "hod_parameters" "Zheng" 2 = Ok d /\
    dget d "sigma" = Some (HArr [VStr "sigma_1"; VStr "sigma_2"]).
Proof.
  split; [exists "sigma"; split; [cbn; tauto|right; split; [discriminate|exists 1%nat; split; [lia|reflexivity]]]|].
  split; [exists "b0"; split; [cbn; tauto|left; split; reflexivity]|]. eexists. split; reflexivity.
Qed.

(** C68 *)
Theorem C68_redshift_interpolation : forall n (z : A1) (g : A2), (2 <= n)%nat -> increasing n z ->
  (forall q, (exists r, interpolate_in_z n z g q = Ok r) <-> (z 0%nat <= q <= z (n - 1)%nat)%R) /\
  (forall q, ~ (z 0%nat <= q <= z (n - 1)%nat)%R -> interpolate_in_z n z g q = Err "ValueError") /\
  (forall i r k, (i < n)%nat -> interpolate_in_z n z g (z i) = Ok r -> r k = g i k) /\
  (forall q r k lo hi, interpolate_in_z n z g q = Ok r -> (forall i, (i < n)%nat -> (lo <= g i k <= hi)%R) -> (lo <= r k <= hi)%R) /\
  (forall q r k a b, interpolate_in_z n z g q = Ok r -> (forall i, (i < n)%nat -> g i k = (a + b * z i)%R) -> r k = (a + b * q)%R).
Proof. exact in_z_spec. Qed.
Print Assumptions C68_redshift_interpolation.
Example C68_case : increasing 3 INR /\ (2 <= 3)%nat.
Proof. split; [|lia]. intros i Hi. rewrite S_INR. lra. Qed.

(** C69 *)
Theorem C69_outputs : forall (X : ext) c b st st' lg, execute X c b (st, []) = ((st', lg), Ok tt) ->
  exists i o1 n1, reads X c b st i /\
    x_update X (p_power X st) (kwargs X i) = (o1, Ok tt) /\
    (want_hod c = true -> x_bins X o1 = Ok n1) /\
    (g_mm c = true -> g_response c = false ->
       written (request_single X b (kwargs X i)) (fun _ => o1) "mm" "matter_power_nl" 1 lg) /\
    (forall mode base, In (mode, base) (galaxy_kinds c) ->
       written (request_single X b (kwargs X i)) (fun _ => o1) mode base n1 lg) /\
    (alignment c = false -> p_power X st' = o1) /\
    (alignment c = true -> exists o2 n2, x_update X o1 (x_hod X (g_ia_1 c)) = (o2, Ok tt) /\ x_bins X o2 = Ok n2 /\
       p_power X st' = o2 /\
       forall mode base, In (mode, base) (alignment_kinds c) ->
       written (alignment_request X c b i) (fun _ => o2) mode base n2 lg).
Proof. exact outputs_complete. Qed.
Print Assumptions C69_outputs.

Theorem C69_nothing_else : forall (X : ext) c b st st' lg, execute X c b (st, []) = ((st', lg), Ok tt) ->
  forall w, In w lg -> w_val w <> None ->
  (g_mm c = true /\ g_response c = false /\ w_sec w = "matter_power_nl" /\ In (w_key w) ["p_k_1h"; "p_k_2h"; "p_k"]) \/
  (exists n1, from_kinds (galaxy_kinds c) n1 w) \/ (alignment c = true /\ exists n2, from_kinds (alignment_kinds c) n2 w).
Proof. exact outputs_sound. Qed.
Print Assumptions C69_nothing_else.

Theorem C69_history_free : forall (X : ext) c b st1 st2 lg, g_mode c <> Some "bnl" ->
  (forall q, x_update X (p_power X st1) q = x_update X (p_power X st2) q) ->
  snd (execute X c b (st1, lg)) = snd (execute X c b (st2, lg)) /\
  snd (fst (execute X c b (st1, lg))) = snd (fst (execute X c b (st2, lg))) /\
  (snd (execute X c b (st1, lg)) = Ok tt ->
   p_power X (fst (fst (execute X c b (st1, lg)))) = p_power X (fst (fst (execute X c b (st2, lg))))).
Proof. exact history_free. Qed.
Print Assumptions C69_history_free.

Example C69_case : (exists st' lg, execute toy_ext (toy_config 4) (toy_block "a") (toy_start, []) = ((st', lg), Ok tt)) /\
  alignment (toy_config 4) = true /\ In ("gg", "galaxy_power") (galaxy_kinds (toy_config 4)) /\
  In ("mi", "matter_intrinsic_power") (alignment_kinds (toy_config 4)) /\
  (forall (a b : obj (xa toy_ext)) q, x_update toy_ext a q = x_update toy_ext b q).
Proof. split; [now apply toy_succeeds|]. split; [reflexivity|]. split; [cbn; tauto|]. split; [cbn; tauto|reflexivity]. Qed.
