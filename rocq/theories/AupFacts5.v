(** Lemmas about add_and_upsample.py: which runs end well, setup, and consequences. *)
From Coq Require Import ZArith Lia Lra.
From Verif Require Import Base Interp InterpFacts FftModel RsModel PipeModel PipeFacts OptModel ChainModel PredModel PredSpec PredFacts2 AupModel AupSpec AupFacts AupFacts2 AupFacts3 AupFacts4.
Open Scope R_scope.

Lemma int_val b s n v : b s n = Some (BInt v) -> int_at b s n = Ok v.
Proof. unfold int_at. now intros ->. Qed.
Lemma then_run r k b1 : r = (b1, Ok tt) -> then_ r k = k b1.
Proof. intros ->. reflexivity. Qed.

(** ** Runs that end well *)
Lemma runs over c b ze ke : grid_of b ze ke -> complete c b -> (over = true \/ forall sec, output c b sec -> b sec "p_k"%string = None) ->
  exists b', aup_execute over c b = (b', Ok tt).
Proof.
  intros G (CM & CE & CA) O.
  assert (NE : exists n oz, (asks "extrapolate" c = true -> sample b (a_hext c) n oz) /\ (asks "extrapolate" c = false -> n = 0%Z)).
  { destruct (asks "extrapolate" c) eqn:E; [|exists 0%Z, 0%Z; split; [discriminate|reflexivity]]. apply asks_iff in E. destruct E as (s & E).
    destruct (CE s E) as (n & oz & S & _). exists n, oz. split; [now intros _|discriminate]. }
  destruct NE as (n & oz & NE & NE0).
  assert (NA : exists m oz', (asks "add_and_extrapolate" c = true -> sample b (a_hred c) m oz' /\ b (a_hblue c) "nbins"%string = Some (BInt m)) /\ (asks "add_and_extrapolate" c = false -> m = 0%Z)).
  { destruct (asks "add_and_extrapolate" c) eqn:E; [|exists 0%Z, 0%Z; split; [discriminate|reflexivity]]. apply asks_iff in E. destruct E as (s & E).
    destruct (CA s E) as (_ & m & oz' & S & B & _). exists m, oz'. split; [now intros _|discriminate]. }
  destruct NA as (m & oz' & NA & NA0).
  destruct (jobs_run over ze ke (run_jobs c ze ke n m (fill_of oz) (fill_of oz')) b (run_independent _ _ _ _ _ _ _)) as (b' & R).
  - intros j Hj Tj. destruct (job_cases _ _ _ _ _ _ _ j Hj) as [(M & [->| ->])|[(i & s & Hi & W & ->)|(i & s & Hi & W & ->)]].
    + destruct (CM M) as (z & k & t & P). exact (extrapolated_runs _ _ _ _ _ _ _ _ P).
    + discriminate Tj.
    + destruct (CE s W) as (n' & oz1 & S & P). destruct S as [S1 _]. destruct (NE (proj2 (asks_iff _ c) (ex_intro _ s W))) as [N1 _]. rewrite N1 in S1. injection S1 as <-.
      destruct (P (i + 1)%nat ltac:(lia)) as (z & k & t & Q). cbn [ejob j_val fst snd]. rewrite <- bin_suffix_name in Q by lia. replace (i + 1 - 1)%nat with i in Q by lia.
      exact (extrapolated_runs _ _ _ _ _ _ _ _ Q).
    + destruct (CA s W) as ((zf & ff & EF & RF & LF) & n' & oz1 & S & _ & P). destruct S as [S1 _]. destruct (NA (proj2 (asks_iff _ c) (ex_intro _ s W))) as [[N1 _] _].
      rewrite N1 in S1. injection S1 as <-. destruct (P (i + 1)%nat ltac:(lia)) as (z & k & p & q & Q1 & Q2 & Q3). cbn [ajob j_val fst snd]. rewrite EF.
      rewrite <- bin_suffix_name in Q1, Q2 by lia. replace (i + 1 - 1)%nat with i in Q1, Q2 by lia. rewrite (combined_ok _ _ _ _ _ _ _ _ _ _ _ _ _ Q1 Q2 Q3 RF LF).
      destruct Q1 as (_ & _ & _ & (D1 & D2 & _) & Sh). apply signed_runs; [apply D1|apply D2|now apply mixture_shape].
  - destruct O as [O|O]; [now left|right]. intros j Hj. apply O. destruct (job_cases _ _ _ _ _ _ _ j Hj) as [(M & [->| ->])|[(i & s & Hi & W & ->)|(i & s & Hi & W & ->)]].
    + left. cbn. tauto.
    + left. cbn. tauto.
    + right. exists s, n, (i + 1)%nat. split; [lia|]. split; [cbn [ejob j_out fst snd]; rewrite <- bin_suffix_name by lia; now replace (i + 1 - 1)%nat with i by lia|].
      left. split; [exact W|]. apply (NE (proj2 (asks_iff _ c) (ex_intro _ s W))).
    + right. exists s, m, (i + 1)%nat. split; [lia|]. split; [cbn [ajob j_out fst snd]; rewrite <- bin_suffix_name by lia; now replace (i + 1 - 1)%nat with i by lia|].
      right. split; [exact W|]. apply (NA (proj2 (asks_iff _ c) (ex_intro _ s W))).
  - exists b'. unfold run_jobs in R. rewrite jobs_app in R. apply then_ok in R. destruct R as (b1 & R1 & R). rewrite jobs_app in R. apply then_ok in R. destruct R as (b2 & R2 & R).
    unfold aup_execute. rewrite (grid_array b ze ke G), mpart, (then_run _ _ b1 R1).
    assert (F1 : forall s k, (k = "nbins" \/ k = "observable_z")%string -> b1 s k = b s k).
    { intros s k N. replace b1 with (fst (in_turn (map (do_job over ze ke) (mjobs c ze ke)) b)) by now rewrite R1. apply turn_frame. right. now apply not_axis. }
    assert (F2 : forall s k, (k = "nbins" \/ k = "observable_z")%string -> b2 s k = b s k).
    { intros s k N. rewrite <- F1 by exact N. replace b2 with (fst (in_turn (map (do_job over ze ke) (ejobs c n (fill_of oz) ze ke)) b1)) by now rewrite R2. apply turn_frame. right. now apply not_axis. }
    assert (E2 : extrapolate_part over c ze ke b1 = (b2, Ok tt)).
    { unfold extrapolate_part. destruct (asks "extrapolate" c) eqn:E.
      - destruct (NE eq_refl) as [N1 N2]. rewrite (int_val b1 _ _ n), (int_val b1 _ _ oz) by (rewrite F1 by tauto; assumption). cbn [bind]. rewrite eloop. exact R2.
      - unfold ejobs in R2. rewrite (keys_none _ _ _ E) in R2. cbn in R2. now injection R2 as ->. }
    rewrite (then_run _ _ b2 E2). unfold add_part. destruct (asks "add_and_extrapolate" c) eqn:E.
    + destruct (NA eq_refl) as [[N1 N2] N3]. rewrite (int_val b2 _ _ m) by (rewrite F2 by tauto; assumption). cbn [bind].
      rewrite (int_val b2 (a_hblue c) _ m) by (rewrite F2 by tauto; assumption). cbn [bind]. rewrite Z.eqb_refl. cbn [bind].
      rewrite (int_val b2 _ _ oz') by (rewrite F2 by tauto; assumption). cbn [bind]. rewrite aloop. exact R.
    + unfold ajobs in R. rewrite (keys_none _ _ _ E) in R. cbn in R. now injection R as ->.
Qed.
(** ... and what they must have found. *)
Lemma extrapolated_needs b sec f ze ke t : extrapolated b sec f ze ke = Ok t -> exists z k p, b sec "z"%string = Some (BArr z) /\ b sec "k_h"%string = Some (BArr k) /\
  b sec "p_k"%string = Some (BTab p) /\ (2 <= List.length z)%nat /\ (2 <= List.length k)%nat /\ shaped z k p.
Proof.
  unfold extrapolated, array, table_at. destruct (b sec "k_h"%string) as [[]|] eqn:K; try discriminate. destruct (b sec "z"%string) as [[]|] eqn:Z1; try discriminate.
  destruct (b sec "p_k"%string) as [[]|] eqn:P; try discriminate. cbn [bind]. unfold signed_resample. destruct (fits _ _ _) eqn:F; [|discriminate]. intros _.
  apply fits_iff in F. do 3 eexists. repeat split; try reflexivity; apply F.
Qed.
Lemma combined_needs zf ff b s red blue f ze ke t : combined zf ff b s red blue f ze ke = Ok t -> exists z k p q, b (s ++ red)%string "z"%string = Some (BArr z) /\
  b (s ++ red)%string "k_h"%string = Some (BArr k) /\ b (s ++ red)%string "p_k"%string = Some (BTab p) /\ b (s ++ blue)%string "p_k"%string = Some (BTab q) /\
  (2 <= List.length z)%nat /\ (2 <= List.length k)%nat /\ shaped z k p /\ shaped z k q /\ (2 <= List.length zf)%nat /\ List.length ff = List.length zf.
Proof.
  unfold combined, array, table_at. destruct (b (s ++ red)%string "z"%string) as [[]|] eqn:Z1; try discriminate. cbn [bind].
  destruct (Nat.leb 2 (List.length zf) && _)%bool eqn:F0; [|discriminate]. cbn [bind]. destruct (b (s ++ red)%string "k_h"%string) as [[]|] eqn:K; try discriminate.
  destruct (b (s ++ red)%string "p_k"%string) as [[]|] eqn:P; try discriminate. destruct (b (s ++ blue)%string "p_k"%string) as [[]|] eqn:Q; try discriminate. cbn [bind].
  destruct (same_shape _ _ && _)%bool eqn:SS; [|discriminate]. cbn [bind]. unfold signed_resample. destruct (fits _ _ _) eqn:F; [|discriminate]. intros _.
  apply fits_iff in F. destruct F as (A & B & C). apply andb_true_iff in F0. destruct F0 as [F1 F2]. apply Nat.leb_le in F1. apply Nat.eqb_eq in F2.
  apply andb_true_iff in SS. destruct SS as [SS LL]. unfold same_shape in SS. apply andb_true_iff in SS. destruct SS as [L1 L2]. apply Nat.eqb_eq in L1, LL.
  rewrite forallb_forall in L2.
  assert (SP : shaped l l0 l1).
  { split; [exact LL|]. intros r Hr. destruct (In_nth l1 r [] Hr) as (j & Hj & E). destruct C as [_ C]. specialize (C (nth j (mixture s (fun j => interp1d Extrapolate (List.length zf) (at_ zf) (at_ ff) (at_ l j)) l1 l2) [])).
    unfold mixture in C. rewrite (nth_map _ _ j 0%nat) in C by now rewrite seq_length. rewrite seq_nth in C by exact Hj. rewrite map_length, seq_length in C. cbn [plus] in C. rewrite E in C. apply C.
    apply in_map_iff. exists j. split; [now rewrite E|]. apply in_seq. lia. }
  do 4 eexists. repeat split; try reflexivity; try assumption; try apply SP; try lia.
  intros r Hr. destruct (In_nth l2 r [] Hr) as (j & Hj & E). specialize (L2 j). rewrite in_seq in L2. specialize (L2 ltac:(lia)). apply Nat.eqb_eq in L2. rewrite <- E, <- L2.
  apply SP, nth_In. lia.
Qed.
Lemma needs over c b b' ze ke s : aup_execute over c b = (b', Ok tt) -> grid_of b ze ke ->
  (a_mm c = extrapolates -> exists z k p, b "matter_power_nl"%string "z"%string = Some (BArr z) /\ b "matter_power_nl"%string "k_h"%string = Some (BArr k) /\
     b "matter_power_nl"%string "p_k"%string = Some (BTab p) /\ shaped z k p) /\
  (option_of c s = extrapolates -> exists n oz, sample b (a_hext c) n oz /\ forall i, (1 <= i <= Z.to_nat n)%nat -> exists z k p,
     let sec := (name_of s ++ a_ext c ++ bin_name n i)%string in
     b sec "z"%string = Some (BArr z) /\ b sec "k_h"%string = Some (BArr k) /\ b sec "p_k"%string = Some (BTab p) /\ shaped z k p) /\
  (option_of c s = adds -> exists n oz, sample b (a_hred c) n oz /\ b (a_hblue c) "nbins"%string = Some (BInt n) /\ forall i, (1 <= i <= Z.to_nat n)%nat ->
     a_fred c <> None /\ exists z k p q,
     let sec := (name_of s ++ a_red c ++ bin_name n i)%string in
     b sec "z"%string = Some (BArr z) /\ b sec "k_h"%string = Some (BArr k) /\ b sec "p_k"%string = Some (BTab p) /\
     b (name_of s ++ a_blue c ++ bin_name n i)%string "p_k"%string = Some (BTab q) /\ shaped z k p /\ shaped z k q).
Proof.
  intros H G. destruct (run_ok over c b b' ze ke G H) as (n & oz & m & oz' & R & SE & SA).
  pose proof (fun j Hj Tj => proj1 (job_values over ze ke _ j b b' (run_independent c ze ke n m (fill_of oz) (fill_of oz')) Hj R (or_introl Tj)) Tj) as V.
  repeat split.
  - intros M. destruct (V (mjob false "matter_power_nl" ze ke)) as (t & T); [|reflexivity|].
    + unfold run_jobs, mjobs. rewrite (proj2 (is_str_iff _ _) M). now left.
    + apply extrapolated_needs in T. destruct T as (z & k & p & A & B & C & _ & _ & D). now exists z, k, p.
  - intros O. exists n, oz. split; [exact (SE (proj2 (asks_iff _ c) (ex_intro _ s O)))|]. intros i Hi.
    destruct (V (ejob c n (fill_of oz) ze ke ((i - 1)%nat, s))) as (t & T); [|reflexivity|].
    + unfold run_jobs. apply in_or_app. right. apply in_or_app. left. now apply in_ejobs.
    + cbn [ejob j_val fst snd] in T. rewrite bin_suffix_name in T by lia. apply extrapolated_needs in T. destruct T as (z & k & p & A & B & C & _ & _ & D). now exists z, k, p.
  - intros O. destruct (SA (proj2 (asks_iff _ c) (ex_intro _ s O))) as [S1 S2]. exists m, oz'. split; [exact S1|]. split; [exact S2|]. intros i Hi.
    destruct (V (ajob c m (fill_of oz') ze ke ((i - 1)%nat, s))) as (t & T); [|reflexivity|].
    + unfold run_jobs. apply in_or_app. right. apply in_or_app. right. now apply in_ajobs.
    + cbn [ajob j_val fst snd] in T. rewrite bin_suffix_name in T by lia. destruct (a_fred c) as [[zf ff]|]; [|discriminate]. split; [discriminate|].
      apply combined_needs in T. destruct T as (z & k & p & q & A & B & C & D & _ & _ & E & F & _). exists z, k, p, q. repeat split; try assumption; try apply E; apply F.
Qed.
Lemma refused c b b' ze ke sec : aup_execute false c b = (b', Ok tt) -> grid_of b ze ke -> output c b sec -> sec <> "matter_power_nl_mead"%string -> b sec "p_k"%string = None.
Proof.
  intros H G O N. destruct (run_ok false c b b' ze ke G H) as (n & oz & m & oz' & R & SE & SA).
  destruct (b sec "p_k"%string) as [w|] eqn:W; [exfalso|reflexivity].
  assert (J : exists j, In j (run_jobs c ze ke n m (fill_of oz) (fill_of oz')) /\ j_try j = false /\ j_out j = sec).
  { destruct O as [(M & [->|E])|(s & n' & i & Hi & -> & [(O & N1)|(O & N1)])]; [| |  |].
    - exists (mjob false "matter_power_nl" ze ke). split; [|split; reflexivity]. unfold run_jobs, mjobs. rewrite (proj2 (is_str_iff _ _) M). now left.
    - contradiction.
    - destruct (SE (proj2 (asks_iff _ c) (ex_intro _ s O))) as [S1 _]. rewrite S1 in N1. injection N1 as ->. exists (ejob c n' (fill_of oz) ze ke ((i - 1)%nat, s)).
      split; [|split; [reflexivity|cbn [ejob j_out fst snd]; now rewrite bin_suffix_name by lia]]. unfold run_jobs. apply in_or_app. right. apply in_or_app. left. now apply in_ejobs.
    - destruct (SA (proj2 (asks_iff _ c) (ex_intro _ s O))) as [[S1 _] _]. rewrite S1 in N1. injection N1 as ->. exists (ajob c n' (fill_of oz') ze ke ((i - 1)%nat, s)).
      split; [|split; [reflexivity|cbn [ajob j_out fst snd]; now rewrite bin_suffix_name by lia]]. unfold run_jobs. apply in_or_app. right. apply in_or_app. right. now apply in_ajobs. }
  destruct J as (j & J1 & J2 & J3). destruct (in_the_way false ze ke _ j b eq_refl J1 J2) as (e & E); [rewrite J3, W; discriminate|]. rewrite R in E. discriminate.
Qed.
(** A job whose failure is dropped leaves its section. *)
Lemma dropped over ze ke J j b b' e n : independent J -> In j J -> j_try j = true -> in_turn (map (do_job over ze ke) J) b = (b', Ok tt) -> j_val j b = Err e ->
  b' (j_out j) n = b (j_out j) n.
Proof.
  intros Ind Hj T H E. destruct (in_split j J Hj) as (J1 & J2 & ->). rewrite map_app in H. cbn [map] in H. rewrite turn_app in H.
  apply then_ok in H. destruct H as (b1 & H1 & H). cbn [in_turn] in H. apply then_ok in H. destruct H as (b2 & H2 & H).
  pose proof (before over ze ke J1 j J2 b Ind) as V. rewrite H1 in V. cbn [fst] in V. rewrite E in V.
  unfold do_job in H2. rewrite V, T in H2. cbn in H2. injection H2 as <-. destruct Ind as (ND & _). rewrite map_app in ND. cbn [map] in ND. apply NoDup_remove_2 in ND.
  replace b' with (fst (in_turn (map (do_job over ze ke) J2) b1)) by now rewrite H. rewrite turn_frame.
  - replace b1 with (fst (in_turn (map (do_job over ze ke) J1) b)) by now rewrite H1. apply turn_frame. left. intros j1 I1 X. apply ND, in_or_app. left. rewrite <- X. now apply in_map.
  - left. intros j2 I2 X. apply ND, in_or_app. right. rewrite <- X. now apply in_map.
Qed.
Lemma mead_dropped over c b b' ze ke n : aup_execute over c b = (b', Ok tt) -> grid_of b ze ke -> b "matter_power_nl_mead"%string "p_k"%string = None ->
  b' "matter_power_nl_mead"%string n = b "matter_power_nl_mead"%string n.
Proof.
  intros H G N. destruct (is_str "extrapolate" (a_mm c)) eqn:M.
  - destruct (run_ok over c b b' ze ke G H) as (k & oz & m & oz' & R & _). set (j := mjob true "matter_power_nl_mead" ze ke).
    assert (J : In j (run_jobs c ze ke k m (fill_of oz) (fill_of oz'))) by (unfold run_jobs, mjobs; rewrite M; right; now left).
    assert (E : exists e, j_val j b = Err e).
    { cbn [j mjob j_val]. unfold extrapolated, array, table_at. destruct (b "matter_power_nl_mead"%string "k_h"%string) as [[]|]; try (eexists; reflexivity).
      destruct (b "matter_power_nl_mead"%string "z"%string) as [[]|]; try (eexists; reflexivity). rewrite N. eexists. reflexivity. }
    destruct E as (e & E). exact (dropped over ze ke _ j b b' e n (run_independent _ _ _ _ _ _ _) J eq_refl R E).
  - apply (run_frame over c b b' (Ok tt)); [exact H|]. intros [O _]. destruct O as [(M' & _)|(s & k & i & _ & E & _)].
    + apply is_str_iff in M'. rewrite M' in M. discriminate.
    + symmetry in E. change "matter_power_nl_mead"%string with ("matter_power_nl" ++ "_mead")%string in E. now apply nl_name in E.
Qed.
(** ** Different numbers of bins *)
Lemma only_ask w v : w <> "add_and_extrapolate"%string -> w <> "no"%string -> is_str w (if is_str "add_and_extrapolate" v then OStr "no" else v) = is_str w v.
Proof.
  intros A B. destruct (is_str "add_and_extrapolate" v) eqn:E; [|reflexivity]. apply is_str_iff in E. subst v. cbn [is_str].
  destruct (String.eqb_spec "no" w); [congruence|]. destruct (String.eqb_spec "add_and_extrapolate" w); [congruence|reflexivity].
Qed.
Lemma only_add v : is_str "add_and_extrapolate" (if is_str "add_and_extrapolate" v then OStr "no" else v) = false.
Proof. destruct (is_str "add_and_extrapolate" v) eqn:E; [reflexivity|exact E]. Qed.
Lemma bins_differ over c b b1 s n m : aup_execute over (only_extrapolating c) b = (b1, Ok tt) -> option_of c s = adds ->
  b (a_hred c) "nbins"%string = Some (BInt n) -> b (a_hblue c) "nbins"%string = Some (BInt m) -> n <> m -> aup_execute over c b = (b1, Err "Exception").
Proof.
  intros H O N M D. unfold aup_execute in *. destruct (z <- array b "matter_power_lin" "z" ;; k <- array b "matter_power_lin" "k_h" ;; Ok (z, k)) as [[ze ke]|e]; [|discriminate].
  change (matter_part over (only_extrapolating c)) with (matter_part over c) in H. apply then_ok in H. destruct H as (b0 & H0 & H). rewrite (then_run _ _ b0 H0).
  apply then_ok in H. destruct H as (b2 & H2 & H).
  assert (K : forall k, keys "extrapolate" (only_extrapolating c) k = keys "extrapolate" c k).
  { intro k. unfold keys, wanting. f_equal. apply filter_ext. intro s'. destruct s'; cbn [option_of only_extrapolating a_gg a_gm a_mI a_II a_gI]; apply only_ask; discriminate. }
  assert (L : forall k f, extrapolate_loop over (only_extrapolating c) k f ze ke = extrapolate_loop over c k f ze ke).
  { intros k f. rewrite !eloop. unfold ejobs. rewrite K. reflexivity. }
  assert (E2 : extrapolate_part over c ze ke b0 = (b2, Ok tt)).
  { rewrite <- H2. unfold extrapolate_part. replace (asks "extrapolate" (only_extrapolating c)) with (asks "extrapolate" c).
    - change (a_hext (only_extrapolating c)) with (a_hext c). destruct (asks "extrapolate" c); [|reflexivity].
      destruct (bind _ _) as [[k oz]|e]; [|reflexivity]. now rewrite L.
    - unfold asks, spectra_options. cbn [existsb fst only_extrapolating a_gg a_gm a_mI a_II a_gI]. rewrite !only_ask by discriminate. reflexivity. }
  rewrite (then_run _ _ b2 E2).
  assert (B12 : b2 = b1).
  { unfold add_part in H. replace (asks "add_and_extrapolate" (only_extrapolating c)) with false in H; [now injection H|].
    unfold asks, spectra_options. cbn [existsb fst only_extrapolating a_gg a_gm a_mI a_II a_gI]. rewrite !only_add. reflexivity. }
  subst b2.
  assert (F1 : forall s k, (k = "nbins" \/ k = "observable_z")%string -> b0 s k = b s k).
  { intros s' k E. rewrite mpart in H0. replace b0 with (fst (in_turn (map (do_job over ze ke) (mjobs c ze ke)) b)) by now rewrite H0. apply turn_frame. right. now apply not_axis. }
  assert (F2 : forall s k, (k = "nbins" \/ k = "observable_z")%string -> b1 s k = b s k).
  { intros s' k E. rewrite <- F1 by exact E. unfold extrapolate_part in E2. destruct (asks "extrapolate" c); [|now injection E2 as <-].
    destruct (bind _ _) as [[n' oz]|e]; [|discriminate]. rewrite eloop in E2.
    replace b1 with (fst (in_turn (map (do_job over ze ke) (ejobs c n' (fill_of oz) ze ke)) b0)) by now rewrite E2. apply turn_frame. right. now apply not_axis. }
  unfold add_part. rewrite (proj2 (asks_iff _ c) (ex_intro _ s O)).
  rewrite (int_val b1 _ _ n) by (rewrite F2 by tauto; assumption). cbn [bind]. rewrite (int_val b1 _ _ m) by (rewrite F2 by tauto; assumption). cbn [bind].
  destruct (Z.eqb_spec n m); [contradiction|]. reflexivity.
Qed.

(** ** setup *)
Lemma text_string missing wrong o n d v : get_string missing wrong o n (Some d) = Ok v <-> text o n d v.
Proof.
  unfold get_string, text, absent. destruct (o n) as [[]|]; split; intro H; try discriminate; try (destruct H as [H|[H _]]; discriminate).
  - injection H as ->. now left.
  - destruct H as [H|[H _]]; [now injection H as ->|discriminate].
  - injection H as ->. now right.
  - destruct H as [H|[_ ->]]; [discriminate|reflexivity].
Qed.
Lemma suffix_part n : part_of_name n (suffix_of n).
Proof. unfold suffix_of, part_of_name. destruct (String.eqb_spec n "") as [->|N]; [now left|now right]. Qed.
Lemma part_only n x : part_of_name n x -> x = suffix_of n.
Proof. unfold suffix_of, part_of_name. intros [[-> ->]|[N ->]]; [reflexivity|]. destruct (String.eqb_spec n ""); [contradiction|reflexivity]. Qed.
Lemma option_val missing o n v : option_at missing o n = Ok v <-> o n = Some v.
Proof. unfold option_at. destruct (o n); split; intro H; try discriminate; injection H as ->; reflexivity. Qed.
Lemma setup_iff missing wrong loadtxt o c : aup_setup missing wrong loadtxt o = Ok c <->
  o "do_p_mm"%string = Some (a_mm c) /\ o "do_p_gg"%string = Some (a_gg c) /\ o "do_p_gm"%string = Some (a_gm c) /\
  o "do_p_mI"%string = Some (a_mI c) /\ o "do_p_II"%string = Some (a_II c) /\ o "do_p_gI"%string = Some (a_gI c) /\
  ((exists s, option_of c s = adds) -> exists file t, o "f_red_file"%string = Some file /\ loadtxt file = Ok t /\ a_fred c = Some t) /\
  ((forall s, option_of c s <> adds) -> a_fred c = None) /\
  (exists v, text o "hod_section_name_extrap" "hod" v /\ a_hext c = lower v) /\
  (exists v, text o "hod_section_name_red" "hod_red" v /\ a_hred c = lower v) /\
  (exists v, text o "hod_section_name_blue" "hod_blue" v /\ a_hblue c = lower v) /\
  (exists v, text o "input_power_suffix_extrap" "" v /\ part_of_name (lower v) (a_ext c)) /\
  (exists v, text o "input_power_suffix_red" "red" v /\ part_of_name (lower v) (a_red c)) /\
  (exists v, text o "input_power_suffix_blue" "blue" v /\ part_of_name (lower v) (a_blue c)).
Proof.
  unfold aup_setup. split.
  - intros H.
    destruct (option_at missing o "do_p_mm") as [mm|] eqn:Emm; [|discriminate]. destruct (option_at missing o "do_p_gg") as [gg|] eqn:Egg; [|discriminate].
    destruct (option_at missing o "do_p_gm") as [gm|] eqn:Egm; [|discriminate]. destruct (option_at missing o "do_p_mI") as [mI|] eqn:EmI; [|discriminate].
    destruct (option_at missing o "do_p_II") as [iI|] eqn:EII; [|discriminate]. destruct (option_at missing o "do_p_gI") as [gI|] eqn:EgI; [|discriminate]. cbn [bind] in H.
    destruct (if existsb _ _ then _ else _) as [fred|] eqn:EF; [|discriminate]. cbn [bind] in H.
    destruct (get_string missing wrong o "hod_section_name_extrap" _) as [he|] eqn:E1; [|discriminate]. cbn [bind] in H.
    destruct (get_string missing wrong o "hod_section_name_red" _) as [hr|] eqn:E2; [|discriminate]. cbn [bind] in H.
    destruct (get_string missing wrong o "hod_section_name_blue" _) as [hb|] eqn:E3; [|discriminate]. cbn [bind] in H.
    destruct (get_string missing wrong o "input_power_suffix_extrap" _) as [ne|] eqn:E4; [|discriminate]. cbn [bind] in H.
    destruct (get_string missing wrong o "input_power_suffix_red" _) as [nr|] eqn:E5; [|discriminate]. cbn [bind] in H.
    destruct (get_string missing wrong o "input_power_suffix_blue" _) as [nb|] eqn:E6; [|discriminate]. cbn [bind] in H.
    injection H as <-. cbn [a_mm a_gg a_gm a_mI a_II a_gI a_fred a_ext a_red a_blue a_hext a_hred a_hblue].
    apply option_val in Emm, Egg, Egm, EmI, EII, EgI. apply text_string in E1, E2, E3, E4, E5, E6.
    set (c := {| a_fred := fred; a_mm := mm; a_gg := gg; a_gm := gm; a_mI := mI; a_II := iI; a_gI := gI; a_ext := suffix_of (lower ne); a_red := suffix_of (lower nr);
       a_blue := suffix_of (lower nb); a_hext := lower he; a_hred := lower hr; a_hblue := lower hb |}).
    assert (X : existsb (is_str "add_and_extrapolate") [gg; gm; mI; iI; gI] = asks "add_and_extrapolate" c) by reflexivity. rewrite X in EF.
    repeat split; try assumption.
    + intros S. apply (asks_iff "add_and_extrapolate" c) in S. rewrite S in EF.
      destruct (option_at missing o "f_red_file") as [file|] eqn:E7; [|discriminate]. cbn [bind] in EF. destruct (loadtxt file) as [t|] eqn:E8; [|discriminate]. cbn [bind] in EF.
      injection EF as <-. exists file, t. apply option_val in E7. now repeat split.
    + intros S. destruct (asks "add_and_extrapolate" c) eqn:A; [apply asks_iff in A; destruct A as (s & A); now apply S in A|]. now injection EF as <-.
    + exists he. now split.
    + exists hr. now split.
    + exists hb. now split.
    + exists ne. split; [assumption|apply suffix_part].
    + exists nr. split; [assumption|apply suffix_part].
    + exists nb. split; [assumption|apply suffix_part].
  - intros (A1 & A2 & A3 & A4 & A5 & A6 & F & F' & (he & E1 & H1) & (hr & E2 & H2) & (hb & E3 & H3) & (ne & E4 & H4) & (nr & E5 & H5) & (nb & E6 & H6)).
    apply (option_val missing) in A1, A2, A3, A4, A5, A6. rewrite A1, A2, A3, A4, A5, A6. cbn [bind].
    apply (text_string missing wrong) in E1, E2, E3, E4, E5, E6. rewrite E1, E2, E3, E4, E5, E6.
    change (existsb (is_str "add_and_extrapolate") [a_gg c; a_gm c; a_mI c; a_II c; a_gI c]) with (asks "add_and_extrapolate" c).
    assert (Y : (if asks "add_and_extrapolate" c then file <- option_at missing o "f_red_file" ;; t <- loadtxt file ;; Ok (Some t) else Ok None) = Ok (a_fred c)).
    { destruct (asks "add_and_extrapolate" c) eqn:A.
      - apply asks_iff in A. destruct (F A) as (file & t & B1 & B2 & ->). apply (option_val missing) in B1. rewrite B1. cbn [bind]. rewrite B2. reflexivity.
      - rewrite F'; [reflexivity|]. intros s O. rewrite (proj2 (asks_iff _ c) (ex_intro _ s O)) in A. discriminate. }
    rewrite Y. cbn [bind]. apply part_only in H4, H5, H6. rewrite <- H1, <- H2, <- H3, <- H4, <- H5, <- H6. destruct c; reflexivity.
Qed.

(** ** Consequences *)
Lemma at_node z y j : rising z -> (j < List.length z)%nat -> interp_lin (List.length z) (at_ z) y (nth j z 0) = y j.
Proof. intros Rz Hj. apply (interp_node (List.length z) (at_ z) y j); [apply Rz|now apply rising_incr|exact Hj]. Qed.
Lemma mode_node beyond z y j : rising z -> (j < List.length z)%nat -> interp1d (mode beyond) (List.length z) (at_ z) y (nth j z 0) = y j.
Proof.
  intros Rz Hj. pose proof (rising_incr z Rz) as I. rewrite interp1d_inside; [now apply at_node|apply (incr_le _ _ 0 j I); lia|apply (incr_le _ _ j (List.length z - 1) I); lia].
Qed.
Lemma value_row beyond z k P j kq : rising z -> (2 <= List.length k)%nat -> (j < List.length z)%nat ->
  value (mode beyond) z k P (nth j z 0) kq = interp_lin (List.length k) (fun i => log10 (at_ k i)) (fun i => P j i) (log10 kq).
Proof.
  intros Rz Nk Hj. unfold value. cbn [interp1d]. apply interp_ext; [exact Nk|]. intros i _. now apply (mode_node beyond z (fun j => P j i)).
Qed.
Lemma value_node beyond z k P j i : good_axes z k -> (j < List.length z)%nat -> (i < List.length k)%nat -> value (mode beyond) z k P (nth j z 0) (nth i k 0) = P j i.
Proof.
  intros (Rz & Rk & Pk) Hj Hi. rewrite value_row; [|exact Rz|apply Rk|exact Hj]. rewrite line_log10 by assumption.
  apply (interp_node (List.length k) (fun i => ln (at_ k i)) (fun i => P j i) i); [apply Rk| |exact Hi].
  intros a Ha. apply ln_increasing; [apply Pk; unfold at_; apply nth_In; lia|]. now apply (rising_incr k Rk).
Qed.
Lemma resampled_node beyond z k P j i v : good_axes z k -> (j < List.length z)%nat -> (i < List.length k)%nat -> resampled beyond z k P (nth j z 0) (nth i k 0) v -> v = P j i.
Proof. intros G Hj Hi H. rewrite (resampled_only _ _ _ _ _ _ _ G H). now apply value_node. Qed.

(** ** The fraction, and writing in place *)
Lemma fraction_once c zf ff z : a_fred c = Some (zf, ff) -> rising zf -> List.length ff = List.length zf ->
  (exists! f, fraction_at c z f) /\ forall j, (j < List.length zf)%nat -> z = nth j zf 0 -> fraction_at c z (nth j ff 0).
Proof.
  intros E RF LF. split.
  - exists (line zf ff z). split; [exists zf, ff; split; [exact E|now apply line_value]|]. intros f (zf' & ff' & E' & L). rewrite E in E'. injection E' as <- <-.
    symmetry. now apply line_only.
  - intros j Hj ->. exists zf, ff. split; [exact E|]. replace (nth j ff 0) with (line zf ff (nth j zf 0)); [now apply line_value|]. exact (at_node zf (at_ ff) j RF Hj).
Qed.
Lemma resampled_once beyond z k P zq kq : good_axes z k -> exists! v, resampled beyond z k P zq kq v.
Proof. intros G. exists (value (mode beyond) z k P zq kq). split; [now apply value_resampled|]. intros v H. symmetry. now apply resampled_only. Qed.
Lemma in_place c b b' ze ke : aup_execute false c b = (b', Ok tt) -> grid_of b ze ke ->
  a_mm c <> extrapolates /\ forall sec, output c b sec -> sec <> "matter_power_nl_mead"%string -> b sec "p_k"%string = None.
Proof.
  intros H G. split; [|intros sec; exact (refused c b b' ze ke sec H G)]. intros M.
  destruct (proj1 (needs false c b b' ze ke GG H G) M) as (z & k & p & _ & _ & P & _).
  pose proof (refused c b b' ze ke "matter_power_nl"%string H G (or_introl (conj M (or_introl eq_refl))) ltac:(discriminate)) as N. rewrite P in N. discriminate N.
Qed.
