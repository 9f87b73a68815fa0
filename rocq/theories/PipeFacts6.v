(** The second population has no influence; distinct outputs have distinct names. *)
From Coq Require Import Decimal DecimalString Ascii FinFun.
From Verif Require Import Base Spec Quad Interp BaseFacts QuadFacts InterpFacts HodModel PkModel AddModel AddSpec AddFacts AddFacts2 PipeModel PipeSpec PipeFacts PipeFacts2 PipeFacts3 PipeFacts4 PipeFacts5.
Open Scope string_scope.

Section Second.
  Variable X : ext.
  Lemma reads_kwargs c b st i1 i2 ia2 pop2 : reads X c b st i1 -> reads X (with_second c ia2 pop2) b st i2 -> kwargs X i1 = kwargs X i2.
  Proof.
    intros (A1' & B1 & C1 & D1 & E1 & _) (A2' & B2 & C2 & D2 & E2 & _).
    change (g_mode (with_second c ia2 pop2)) with (g_mode c) in *. change (g_response (with_second c ia2 pop2)) with (g_response c) in *.
    change (galaxy (with_second c ia2 pop2)) with (galaxy c) in *. change (alignment (with_second c ia2 pop2)) with (alignment c) in *.
    unfold kwargs.
    assert (E0 : i_base X i1 = i_base X i2) by congruence.
    assert (Eb : i_beta X i1 = i_beta X i2).
    { destruct (option_eq_dec (g_mode c) "bnl"); [|congruence]. destruct B1 as (t1 & T1 & ->), B2 as (t2 & T2 & ->).
      change (bnl_step X (with_second c ia2 pop2)) with (bnl_step X c) in T2. rewrite T1 in T2. now injection T2 as ->. }
    assert (En : i_nl X i1 = i_nl X i2).
    { destruct (orb (g_response c) _); [|congruence]. destruct C1 as (n1 & N1 & ->), C2 as (n2 & N2 & ->). congruence. }
    assert (Eh : i_hod X i1 = i_hod X i2).
    { destruct (orb (galaxy c) (alignment c)); [|congruence]. destruct D1 as (p1 & h1 & P1 & H1 & ->), D2 as (p2 & h2 & P2 & H2 & ->).
      cbn in *. congruence. }
    assert (Ea : i_align X i1 = i_align X i2).
    { destruct (alignment c); [|congruence]. destruct E1 as (d1 & D1' & ->), E2 as (d2 & D2' & ->). cbn in *. congruence. }
    congruence.
  Qed.
  Lemma align_value c b i h mode v : mode <> "mm" -> triple X (alignment_request X c b i) h mode v ->
    exists v1, triple X (request_single X b (kwargs X i)) (heap_of X (h 0%nat)) mode v1 /\
      forall comp nb x y, r_val (pick v comp) nb x y = r_val (pick v1 comp) nb x y.
  Proof.
    intros NM T. assert (T' : triple X (alignment_request X c b i) (heap_of X (h 0%nat)) mode v).
    { apply (triple_heap X _ h); [apply align_model|reflexivity|exact T]. }
    clear T. unfold alignment_request in T'. destruct (g_split c); [|eauto].
    destruct T' as (A & B & C).
    destruct (split_value X _ _ _ _ _ _ _ NM A) as (a & A' & EA). destruct (split_value X _ _ _ _ _ _ _ NM B) as (b' & B' & EB).
    destruct (split_value X _ _ _ _ _ _ _ NM C) as (t & C' & EC). exists (a, b', t). split; [repeat split; assumption|].
    intros comp nb x y. unfold pick. cbn [fst snd]. destruct (String.eqb comp "1h"); [apply EA|]. destruct (String.eqb comp "2h"); [apply EB|apply EC].
  Qed.
  Lemma triple_fun p h mode v v' : triple X p h mode v -> triple X p h mode v' -> v = v'.
  Proof. intros (A & B & C) (A' & B' & C'). destruct v as [[a b] t], v' as [[a' b'] t']. cbn in *. congruence. Qed.
  Lemma bins_match base extra n v v' lg2 : (forall comp nb x y, r_val (pick v comp) nb x y = r_val (pick v' comp) nb x y) ->
    (forall w, In w (save_bins base extra n v') -> In w lg2) ->
    forall w f, In w (save_bins base extra n v) -> w_val w = Some f ->
    exists w2 f2, In w2 lg2 /\ place w2 = place w /\ w_val w2 = Some f2 /\ forall x y, f2 x y = f x y.
  Proof.
    intros E S w f I V. apply in_save_bins in I as (nb & L & [(comp & key & C & ->)|(s & k & _ & ->)]); [|discriminate].
    cbn in V. injection V as <-. exists {| w_sec := bin_name base n nb; w_key := key; w_val := Some (r_val (pick v' comp) nb) |}, (r_val (pick v' comp) nb).
    split; [apply S, in_save_bins; exists nb; split; [exact L|left; eauto]|]. split; [reflexivity|]. split; [reflexivity|]. intros. now rewrite E.
  Qed.
  Theorem second_ignored c b st st1 st2 lg1 lg2 ia2 pop2 :
    execute X c b (st, []) = ((st1, lg1), Ok tt) -> execute X (with_second c ia2 pop2) b (st, []) = ((st2, lg2), Ok tt) ->
    p_power X st1 = p_power X st2 /\
    forall w f, In w lg1 -> w_val w = Some f ->
    exists w2 f2, In w2 lg2 /\ place w2 = place w /\ w_val w2 = Some f2 /\ forall x y, f2 x y = f x y.
  Proof.
    intros H1 H2. apply execute_ok in H1 as (r1 & R1 & L1). apply execute_ok in H2 as (r2 & R2 & L2). cbn [app] in L1, L2.
    set (c2 := with_second c ia2 pop2) in *.
    destruct R1 as (R1 & U1 & _ & B1 & O1 & M1 & G1 & N1 & A1' & I1 & J1 & K1 & P1).
    destruct R2 as (R2 & U2 & _ & B2 & O2 & M2 & G2 & N2 & A2' & I2 & J2 & K2 & P2).
    pose proof (reads_kwargs c b st _ _ ia2 pop2 R1 R2) as EK.
    change (alignment c2) with (alignment c) in *. change (want_hod c2) with (want_hod c) in *. change (g_gg c2) with (g_gg c) in *.
    change (g_gm c2) with (g_gm c) in *. change (g_mm c2) with (g_mm c) in *. change (g_response c2) with (g_response c) in *.
    change (g_II c2) with (g_II c) in *. change (g_gI c2) with (g_gI c) in *. change (g_mI c2) with (g_mI c) in *.
    change (g_ia_1 c2) with (g_ia_1 c) in *.
    rewrite <- EK in *. rewrite U1 in U2. injection U2 as U2. rewrite <- U2 in *.
    assert (EA : alignment c = true -> d_o2 X r1 = d_o2 X r2 /\ d_n2 X r1 = d_n2 X r2).
    { intro A. destruct (A1' A) as [V1 W1], (A2' A) as [V2 W2]. rewrite V1 in V2. injection V2 as V2. rewrite <- V2 in W2. split; congruence. }
    split. { rewrite P1, P2. destruct (alignment c); [now apply EA|congruence]. }
    intros w f I V. subst lg1 lg2. unfold full_log in I. repeat rewrite in_app_iff in I. unfold part in I.
    destruct I as [I|[I|[I|[I|[I|[I|I]]]]]].
    - pose proof (plain_matter w I). congruence.
    - destruct (want_hod c); [|destruct I]. pose proof (plain_hod _ _ _ I). congruence.
    - destruct O1 as [E|(_ & _ & n & _ & E)]; rewrite E in I; [destruct I|]. pose proof (plain_obs _ _ _ I). congruence.
    - destruct (andb (g_mm c) (negb (g_response c))) eqn:E; [|destruct I].
      assert (Em : orb (g_mm c) (g_response c) = true) by (apply andb_prop in E as [-> _]; reflexivity).
      rewrite (triple_fun _ _ _ _ _ (M1 Em) (M2 Em)) in I. exists w, f. split; [|now split].
      unfold full_log, part. change (g_mm c2) with (g_mm c). change (g_response c2) with (g_response c). rewrite E. rewrite !in_app_iff. tauto.
    - destruct (g_gg c) eqn:E; [|destruct I].
      assert (W : want_hod c = true) by (unfold want_hod, galaxy; rewrite E; cbn; now rewrite andb_false_r).
      rewrite (triple_fun _ _ _ _ _ (G1 eq_refl) (G2 eq_refl)) in I.
      assert (En : d_n1 X r1 = d_n1 X r2) by (specialize (B1 W); specialize (B2 W); congruence). rewrite En in I.
      exists w, f. split; [|now split]. unfold full_log, part. change (g_gg c2) with (g_gg c). rewrite E. rewrite !in_app_iff. tauto.
    - destruct (g_gm c) eqn:E; [|destruct I].
      assert (W : want_hod c = true) by (unfold want_hod, galaxy; rewrite E; now rewrite orb_true_r, andb_false_r).
      rewrite (triple_fun _ _ _ _ _ (N1 eq_refl) (N2 eq_refl)) in I.
      assert (En : d_n1 X r1 = d_n1 X r2) by (specialize (B1 W); specialize (B2 W); congruence). rewrite En in I.
      exists w, f. split; [|now split]. unfold full_log, part. change (g_gm c2) with (g_gm c). rewrite E. rewrite !in_app_iff. tauto.
    - destruct (alignment c) eqn:A; [|destruct I]. destruct (EA eq_refl) as [Eo En].
      repeat rewrite in_app_iff in I. destruct I as [I|[I|[I|I]]].
      + pose proof (plain_hod _ _ _ I). congruence.
      + destruct (g_II c) eqn:E; [|destruct I]. destruct (I1 eq_refl eq_refl) as (h1 & F1 & T1), (I2 eq_refl eq_refl) as (h2 & F2 & T2).
        apply align_value in T1 as (v1 & T1 & E1); [|discriminate]. apply align_value in T2 as (v2 & T2 & E2); [|discriminate].
        rewrite F1 in T1. rewrite F2, <- EK, <- Eo in T2. rewrite <- (triple_fun _ _ _ _ _ T1 T2) in E2. rewrite En in I.
        refine (bins_match _ _ _ _ (d_ii X r2) _ _ _ w f I V); [intros; now rewrite E1, E2|].
        intros w' I'. unfold full_log, part. change (alignment c2) with (alignment c). change (g_II c2) with (g_II c). rewrite A, E. rewrite !in_app_iff. tauto.
      + destruct (g_gI c) eqn:E; [|destruct I]. destruct (J1 eq_refl eq_refl) as (h1 & F1 & T1), (J2 eq_refl eq_refl) as (h2 & F2 & T2).
        apply align_value in T1 as (v1 & T1 & E1); [|discriminate]. apply align_value in T2 as (v2 & T2 & E2); [|discriminate].
        rewrite F1 in T1. rewrite F2, <- EK, <- Eo in T2. rewrite <- (triple_fun _ _ _ _ _ T1 T2) in E2. rewrite En in I.
        refine (bins_match _ _ _ _ (d_gi X r2) _ _ _ w f I V); [intros; now rewrite E1, E2|].
        intros w' I'. unfold full_log, part. change (alignment c2) with (alignment c). change (g_gI c2) with (g_gI c). rewrite A, E. rewrite !in_app_iff. tauto.
      + destruct (g_mI c) eqn:E; [|destruct I]. destruct (K1 eq_refl eq_refl) as (h1 & F1 & T1), (K2 eq_refl eq_refl) as (h2 & F2 & T2).
        apply align_value in T1 as (v1 & T1 & E1); [|discriminate]. apply align_value in T2 as (v2 & T2 & E2); [|discriminate].
        rewrite F1 in T1. rewrite F2, <- EK, <- Eo in T2. rewrite <- (triple_fun _ _ _ _ _ T1 T2) in E2. rewrite En in I.
        refine (bins_match _ _ _ _ (d_mi X r2) _ _ _ w f I V); [intros; now rewrite E1, E2|].
        intros w' I'. unfold full_log, part. change (alignment c2) with (alignment c). change (g_mI c2) with (g_mI c). rewrite A, E. rewrite !in_app_iff. tauto.
  Qed.
End Second.

(** ** Collisions *)
Lemma NoDup_app_intro {A} (a b : list A) : NoDup a -> NoDup b -> (forall x, In x a -> In x b -> False) -> NoDup (a ++ b)%list.
Proof.
  intros Ha Hb D. induction Ha as [|x a N Ha IH]; [exact Hb|]. cbn. constructor.
  - intro I. apply in_app_or in I as [I|I]; [contradiction|]. apply (D x); [now left|exact I].
  - apply IH. intros y Iy. apply D. now right.
Qed.
Lemma NoDup_flat_map {A B} (f : A -> list B) l : NoDup l -> (forall x, In x l -> NoDup (f x)) ->
  (forall x y z, In x l -> In y l -> In z (f x) -> In z (f y) -> x = y) -> NoDup (flat_map f l).
Proof.
  intros H F D. induction H as [|x l N H IH]; cbn; [constructor|]. apply NoDup_app_intro.
  - apply F. now left.
  - apply IH; [intros; apply F; now right|]. intros a b z Ia Ib. apply D; now right.
  - intros z I J. apply in_flat_map in J as (y & Iy & J). assert (x = y) by (apply (D x y z); [now left|now right|assumption|assumption]). subst. contradiction.
Qed.
Lemma NoDup_b (l : list string) : (fix nd l := match l with [] => true | x :: t => andb (negb (existsb (String.eqb x) t)) (nd t) end) l = true -> NoDup l.
Proof.
  induction l as [|x l IH]; intro H; [constructor|]. apply andb_prop in H as [H1 H2]. constructor; [|apply IH, H2].
  intro I. apply negb_true_iff in H1. assert (existsb (String.eqb x) l = true) by (apply existsb_exists; exists x; split; [exact I|apply String.eqb_refl]). congruence.
Qed.
Lemma flat_map_map {A B C} (g : B -> C) (f : A -> list B) l : map g (flat_map f l) = flat_map (fun x => map g (f x)) l.
Proof. induction l as [|x l IH]; [reflexivity|]. cbn. now rewrite map_app, IH. Qed.

(** Keys "<name><suffix>" of one section. *)
Lemma names_nodup sec (names : list string) bins : NoDup names ->
  NoDup (flat_map (fun nb => map (fun n => (sec, n ++ suffix bins nb)) names) (seq 0 bins) : list (string * string)).
Proof.
  intro H. apply NoDup_flat_map.
  - apply seq_NoDup.
  - intros nb I. apply in_seq in I. apply FinFun.Injective_map_NoDup; [|exact H]. intros x y E. injection E as E. rewrite !suffix_name in E.
    apply bin_name_same in E; [apply E|lia|lia].
  - intros a b z Ia Ib Ja Jb. apply in_seq in Ia, Ib. apply in_map_iff in Ja as (x & <- & _), Jb as (y & E & _).
    injection E as E. rewrite !suffix_name in E. apply bin_name_same in E; [symmetry; apply E|lia|lia].
Qed.
Lemma unnumbered_b s : existsb (Ascii.eqb (last_char s "0")) digits = false -> unnumbered s.
Proof.
  intros H I. assert (existsb (Ascii.eqb (last_char s "0")) digits = true); [|congruence].
  apply existsb_exists. exists (last_char s "0"). split; [exact I|apply Ascii.eqb_refl].
Qed.
Lemma hod_keys_nodup sec bins : NoDup (map place (hod_keys sec bins)).
Proof.
  unfold hod_keys. cbn [map]. constructor.
  - intro I. rewrite flat_map_map in I. apply in_flat_map in I as (nb & I & J). apply in_seq in I. rewrite map_map in J.
    apply in_map_iff in J as (n & E & J). unfold place, note in E. cbn in E. injection E as E. rewrite suffix_name in E.
    change "nbins" with (bin_name "nbins" 1 0) in E. apply bin_name_inj in E as [E _]; try lia.
    + subst n. unfold hod_names in J. cbn in J. repeat (destruct J as [J|J]; [discriminate|]). exact J.
    + apply unnumbered_b. cbn in J. repeat (destruct J as [<-|J]; [reflexivity|]). destruct J.
    + apply unnumbered_b. reflexivity.
  - rewrite flat_map_map. erewrite flat_map_ext; [apply (names_nodup sec hod_names)|].
    + apply NoDup_b. reflexivity.
    + intro nb. rewrite map_map. apply map_ext. intro n. reflexivity.
Qed.
Lemma obs_keys_nodup sec n : NoDup (map place (obs_keys sec n)).
Proof.
  unfold obs_keys. cbn [map]. constructor.
  - intro I. rewrite flat_map_map in I. apply in_flat_map in I as (nb & I & J). rewrite map_map in J. apply in_map_iff in J as (m & E & J).
    unfold place, note in E. cbn [w_sec w_key] in E. injection E as E.
    assert (U : unnumbered "obs_func_definition") by (apply unnumbered_b; reflexivity).
    apply U. rewrite <- E. apply numbered_last.
  - rewrite flat_map_map. apply NoDup_flat_map.
    + apply seq_NoDup.
    + intros nb I. rewrite map_map. apply (FinFun.Injective_map_NoDup (f := fun m => place (note sec (m ++ "_" ++ dec (nb + 1))))).
      * intros x y E. unfold place, note in E. cbn [w_sec w_key] in E. injection E as E. now apply underscore_split in E.
      * apply NoDup_b. reflexivity.
    + intros a b z Ia Ib Ja Jb. rewrite map_map in Ja, Jb. apply in_map_iff in Ja as (x & <- & _), Jb as (y & E & _).
      unfold place, note in E. cbn [w_sec w_key] in E. injection E as E. apply underscore_split in E. lia.
Qed.
Lemma save_bins_nodup base extra bins v : unnumbered base ->
  (forall s k, extra = Some (s, k) -> unnumbered s /\ s <> base) -> NoDup (map place (save_bins base extra bins v)).
Proof.
  intros U UE. unfold save_bins. rewrite flat_map_map. apply NoDup_flat_map.
  - apply seq_NoDup.
  - intros nb I. apply in_seq in I. unfold pk_grid. rewrite suffix_name. destruct extra as [[s k]|]; cbn.
    + destruct (UE s k eq_refl) as [_ Us]. rewrite suffix_name.
      repeat constructor; cbn; intro H; repeat (destruct H as [H|H]; [injection H; try discriminate; intros; apply bin_name_same in H0 || idtac|]);
        try (apply Us; match goal with E : bin_name s _ _ = bin_name base _ _ |- _ => apply bin_name_same in E as [E _]; [exact E|lia|lia] end); try destruct H.
    + repeat constructor; cbn; intro H; repeat (destruct H as [H|H]; [injection H; discriminate|]); destruct H.
  - intros a b z Ia Ib Ja Jb. apply in_seq in Ia, Ib.
    assert (K : forall nb, In z (map place (pk_grid base (suffix bins nb) v nb ++ match extra with Some (s, k) => [note (s ++ suffix bins nb) k] | None => [] end)) ->
       exists s, fst z = bin_name s bins nb /\ (s = base \/ exists k, extra = Some (s, k))).
    { intros nb J. rewrite map_app in J. apply in_app_or in J as [J|J].
      - exists base. split; [|now left]. unfold pk_grid in J. rewrite suffix_name in J. cbn in J. destruct J as [<-|[<-|[<-|[]]]]; reflexivity.
      - destruct extra as [[s k]|]; [|destruct J]. destruct J as [<-|[]]. exists s. cbn. rewrite suffix_name. split; [reflexivity|]. right. eauto. }
    destruct (K a Ja) as (s & E & _), (K b Jb) as (s' & E' & _). rewrite E in E'. apply bin_name_same in E'; [apply E'|lia|lia].
Qed.

(** Sections of a part of the log: numbered versions of [B] or one of the user's sections [U]. *)
Definition tagged (B U : list string) (l : list write) : Prop :=
  forall w, In w l -> (exists base n nb, In base B /\ (nb < n)%nat /\ w_sec w = bin_name base n nb) \/ In (w_sec w) U.
Lemma tagged_app B1 U1 l1 B2 U2 l2 : tagged B1 U1 l1 -> tagged B2 U2 l2 -> tagged (B1 ++ B2) (U1 ++ U2) (l1 ++ l2).
Proof.
  intros H1 H2 w I. apply in_app_or in I as [I|I]; [destruct (H1 w I) as [(base & n & nb & J & L & E)|J]|destruct (H2 w I) as [(base & n & nb & J & L & E)|J]];
    try (right; apply in_or_app; tauto); left; exists base, n, nb; (split; [apply in_or_app; tauto|now split]).
Qed.
Lemma tagged_part B U l (b : bool) : (b = true -> tagged B U l) -> tagged B U (part b l).
Proof. intros H. unfold part. destruct b; [auto|]. intros w []. Qed.
Definition keys_ok (l : list write) : Prop := NoDup (map place l).
Lemma keys_ok_part l (b : bool) : keys_ok l -> keys_ok (part b l).
Proof. intro H. unfold part. destruct b; [exact H|constructor]. Qed.
Lemma keys_app B1 U1 l1 B2 U2 l2 : keys_ok l1 -> keys_ok l2 -> tagged B1 U1 l1 -> tagged B2 U2 l2 ->
  (forall x, In x B1 -> In x B2 -> False) -> (forall x, In x U1 -> In x U2 -> False) ->
  (forall x, In x (B1 ++ B2) -> unnumbered x /\ In x pipeline_sections) -> (forall x, In x (U1 ++ U2) -> free_section x) ->
  keys_ok (l1 ++ l2).
Proof.
  intros K1 K2 T1 T2 DB DU HB HU. unfold keys_ok. rewrite map_app. apply NoDup_app_intro; [exact K1|exact K2|].
  intros z I1 I2. apply in_map_iff in I1 as (w1 & <- & I1), I2 as (w2 & E & I2). unfold place in E. injection E as E _.
  destruct (T1 w1 I1) as [(b1 & n1 & m1 & J1 & L1 & E1)|J1], (T2 w2 I2) as [(b2 & n2 & m2 & J2 & L2 & E2)|J2].
  - rewrite E1, E2 in E. destruct (HB b1) as [U1' _]; [apply in_or_app; tauto|]. destruct (HB b2) as [U2' _]; [apply in_or_app; tauto|].
    apply bin_name_inj in E as [E _]; try assumption. subst. now apply (DB b1).
  - destruct (HB b1) as [_ P]; [apply in_or_app; tauto|]. apply (HU (w_sec w2) ltac:(apply in_or_app; tauto) b1 n1 m1 P L1). congruence.
  - destruct (HB b2) as [_ P]; [apply in_or_app; tauto|]. apply (HU (w_sec w1) ltac:(apply in_or_app; tauto) b2 n2 m2 P L2). congruence.
  - rewrite E in J2. now apply (DU (w_sec w1)).
Qed.
Lemma tagged_bins base extra bins v B : In base B -> (forall s k, extra = Some (s, k) -> In s B) -> tagged B [] (save_bins base extra bins v).
Proof.
  intros I E w J. left. apply in_save_bins in J as (nb & L & [(comp & key & _ & ->)|(s & k & Ee & ->)]); cbn [w_sec note];
    [exists base|exists s]; exists bins, nb; eauto.
Qed.
Lemma tagged_hod sec bins : tagged [] [sec] (hod_keys sec bins).
Proof.
  intros w I. right. unfold hod_keys in I. destruct I as [<-|I]; [now left|]. apply in_flat_map in I as (nb & _ & I). apply in_map_iff in I as (n & <- & _). now left.
Qed.
Lemma tagged_obs sec n : tagged [] [sec] (obs_keys sec n).
Proof.
  intros w I. right. unfold obs_keys in I. destruct I as [<-|I]; [now left|]. apply in_flat_map in I as (nb & _ & I). apply in_map_iff in I as (m & <- & _). now left.
Qed.
Definition matter_sections := ["concentration_m"; "concentration_sat"; "nfw_scale_radius_m"; "nfw_scale_radius_sat"; "virial_radius"; "fourier_nfw_profile";
   "density"; "hmf"; "halobias"; "cosmological_parameters"].
Lemma tagged_matter : tagged matter_sections [] matter_keys.
Proof.
  intros w I. left. unfold matter_keys in I. apply in_map_iff in I as ((s, k) & <- & I). exists s, 1%nat, 0%nat. split; [|split; [lia|reflexivity]].
  cbn in I. repeat (destruct I as [E|I]; [injection E as <- <-; cbn; tauto|]). destruct I.
Qed.
Lemma matter_nodup : keys_ok matter_keys.
Proof.
  unfold keys_ok, matter_keys. cbn [map place note fst snd w_sec w_key].
  assert (G : forall l : list (string * string), NoDup (map (fun p => fst p ++ "/" ++ snd p) l) -> NoDup l).
  { intros l H. apply NoDup_map_inv in H. exact H. }
  apply G. cbn [map fst snd]. apply NoDup_b. reflexivity.
Qed.
Lemma grid_nodup v : keys_ok (pk_grid "matter_power_nl" "" v 0).
Proof. unfold keys_ok, pk_grid. cbn. repeat constructor; cbn; intro H; repeat (destruct H as [H|H]; [injection H; discriminate|]); destruct H. Qed.
Lemma tagged_grid v : tagged ["matter_power_nl"] [] (pk_grid "matter_power_nl" "" v 0).
Proof. intros w I. left. exists "matter_power_nl", 1%nat, 0%nat. split; [now left|]. split; [lia|]. cbn in I. destruct I as [<-|[<-|[<-|[]]]]; reflexivity. Qed.

Ltac notin_list := let H1 := fresh in let H2 := fresh in intros ? H1 H2; cbn in H1, H2;
  repeat (destruct H1 as [<-|H1]; [repeat (destruct H2 as [H2|H2]; [try discriminate; congruence|]); destruct H2|]); destruct H1.
Ltac bases_ok := let H := fresh in intros ? H; cbn in H; repeat (destruct H as [<-|H]; [split; [apply unnumbered_b; reflexivity|cbn; tauto]|]); destruct H.

Theorem no_collision X c b st st' lg : execute X c b (st, []) = ((st', lg), Ok tt) ->
  free_section (g_hod_section c) -> free_section (g_hod_section_ia c) -> free_section (g_obs_section c) ->
  g_hod_section c <> g_hod_section_ia c -> g_hod_section c <> g_obs_section c -> g_hod_section_ia c <> g_obs_section c ->
  NoDup (map place lg).
Proof.
  intros H F1 F2 F3 D1 D2 D3. apply execute_ok in H as (r & (_ & _ & _ & _ & O & _) & ->). cbn [app].
  change (keys_ok (full_log X c r)). unfold full_log.
  assert (SB : forall base extra bins v, unnumbered base -> (forall s k, extra = Some (s, k) -> unnumbered s /\ s <> base) ->
     keys_ok (save_bins base extra bins v)) by (intros; now apply save_bins_nodup).
  assert (UN : forall s k (s' k' : string), Some (s, k) = Some (s', k') -> s = s') by (intros ? ? ? ? E; now injection E).
  assert (Kmi : keys_ok (part (g_mI c) (save_bins "matter_intrinsic_power" None (d_n2 X r) (d_mi X r)))).
  { apply keys_ok_part, SB; [apply unnumbered_b; reflexivity|discriminate]. }
  assert (Tmi : tagged ["matter_intrinsic_power"] [] (part (g_mI c) (save_bins "matter_intrinsic_power" None (d_n2 X r) (d_mi X r)))).
  { apply tagged_part. intros _. apply tagged_bins; [now left|discriminate]. }
  assert (Kgi : keys_ok (part (g_gI c) (save_bins "galaxy_intrinsic_power" None (d_n2 X r) (d_gi X r)))).
  { apply keys_ok_part, SB; [apply unnumbered_b; reflexivity|discriminate]. }
  assert (Tgi : tagged ["galaxy_intrinsic_power"] [] (part (g_gI c) (save_bins "galaxy_intrinsic_power" None (d_n2 X r) (d_gi X r)))).
  { apply tagged_part. intros _. apply tagged_bins; [now left|discriminate]. }
  assert (Kii : keys_ok (part (g_II c) (save_bins "intrinsic_power" None (d_n2 X r) (d_ii X r)))).
  { apply keys_ok_part, SB; [apply unnumbered_b; reflexivity|discriminate]. }
  assert (Tii : tagged ["intrinsic_power"] [] (part (g_II c) (save_bins "intrinsic_power" None (d_n2 X r) (d_ii X r)))).
  { apply tagged_part. intros _. apply tagged_bins; [now left|discriminate]. }
  pose proof (keys_app _ _ _ _ _ _ Kgi Kmi Tgi Tmi ltac:(notin_list) ltac:(intros ? []) ltac:(bases_ok) ltac:(intros ? [])) as K1.
  pose proof (tagged_app _ _ _ _ _ _ Tgi Tmi) as T1.
  pose proof (keys_app _ _ _ _ _ _ Kii K1 Tii T1 ltac:(notin_list) ltac:(intros ? []) ltac:(bases_ok) ltac:(intros ? [])) as K2.
  pose proof (tagged_app _ _ _ _ _ _ Tii T1) as T2.
  pose proof (keys_app _ _ _ _ _ _ (hod_keys_nodup (g_hod_section_ia c) (d_n2 X r)) K2 (tagged_hod _ _) T2 ltac:(intros ? []) ltac:(intros ? _ []) ltac:(bases_ok)
    ltac:(intros ? [<-|[]]; assumption)) as K3.
  pose proof (tagged_app _ _ _ _ _ _ (tagged_hod (g_hod_section_ia c) (d_n2 X r)) T2) as T3.
  apply (keys_ok_part _ (alignment c)) in K3. pose proof (tagged_part _ _ _ (alignment c) (fun _ => T3)) as T3'. clear T3.
  assert (Kgm : keys_ok (part (g_gm c) (save_bins "matter_galaxy_power" (Some ("galaxy_matter_linear_bias", "bgm_linear")) (d_n1 X r) (d_gm X r)))).
  { apply keys_ok_part, SB; [apply unnumbered_b; reflexivity|]. intros s k E. apply UN in E as <-. split; [apply unnumbered_b; reflexivity|discriminate]. }
  assert (Tgm : tagged ["matter_galaxy_power"; "galaxy_matter_linear_bias"] []
     (part (g_gm c) (save_bins "matter_galaxy_power" (Some ("galaxy_matter_linear_bias", "bgm_linear")) (d_n1 X r) (d_gm X r)))).
  { apply tagged_part. intros _. apply tagged_bins; [now left|]. intros s k E. apply UN in E as <-. cbn; tauto. }
  assert (Kgg : keys_ok (part (g_gg c) (save_bins "galaxy_power" (Some ("galaxy_linear_bias", "bg_linear")) (d_n1 X r) (d_gg X r)))).
  { apply keys_ok_part, SB; [apply unnumbered_b; reflexivity|]. intros s k E. apply UN in E as <-. split; [apply unnumbered_b; reflexivity|discriminate]. }
  assert (Tgg : tagged ["galaxy_power"; "galaxy_linear_bias"] []
     (part (g_gg c) (save_bins "galaxy_power" (Some ("galaxy_linear_bias", "bg_linear")) (d_n1 X r) (d_gg X r)))).
  { apply tagged_part. intros _. apply tagged_bins; [now left|]. intros s k E. apply UN in E as <-. cbn; tauto. }
  pose proof (keys_app _ _ _ _ _ _ Kgm K3 Tgm T3' ltac:(notin_list) ltac:(intros ? []) ltac:(bases_ok) ltac:(intros ? [<-|[]]; assumption)) as K4.
  pose proof (tagged_app _ _ _ _ _ _ Tgm T3') as T4.
  pose proof (keys_app _ _ _ _ _ _ Kgg K4 Tgg T4 ltac:(notin_list) ltac:(intros ? []) ltac:(bases_ok) ltac:(intros ? [<-|[]]; assumption)) as K5.
  pose proof (tagged_app _ _ _ _ _ _ Tgg T4) as T5.
  pose proof (keys_app _ _ _ _ _ _ (keys_ok_part _ (andb (g_mm c) (negb (g_response c))) (grid_nodup (d_mm X r))) K5
    (tagged_part _ _ _ (andb (g_mm c) (negb (g_response c))) (fun _ => tagged_grid (d_mm X r))) T5
    ltac:(notin_list) ltac:(intros ? []) ltac:(bases_ok) ltac:(intros ? [<-|[]]; assumption)) as K6.
  pose proof (tagged_app _ _ _ _ _ _ (tagged_part _ _ _ (andb (g_mm c) (negb (g_response c))) (fun _ => tagged_grid (d_mm X r))) T5) as T6.
  assert (Ko : keys_ok (d_obs X r)) by (destruct O as [->|(_ & _ & n & _ & ->)]; [constructor|apply obs_keys_nodup]).
  assert (To : tagged [] [g_obs_section c] (d_obs X r)) by (destruct O as [->|(_ & _ & n & _ & ->)]; [intros w []|apply tagged_obs]).
  pose proof (keys_app _ _ _ _ _ _ Ko K6 To T6 ltac:(intros ? []) ltac:(intros ? [<-|[]] [E|[]]; congruence) ltac:(bases_ok)
    ltac:(intros ? [<-|[<-|[]]]; assumption)) as K7.
  pose proof (tagged_app _ _ _ _ _ _ To T6) as T7.
  pose proof (keys_app _ _ _ _ _ _ (keys_ok_part _ (want_hod c) (hod_keys_nodup (g_hod_section c) (d_n1 X r))) K7
    (tagged_part _ _ _ (want_hod c) (fun _ => tagged_hod (g_hod_section c) (d_n1 X r))) T7 ltac:(intros ? [])
    ltac:(intros ? [<-|[]] [E|[E|[]]]; congruence) ltac:(bases_ok) ltac:(intros ? [<-|[<-|[<-|[]]]]; assumption)) as K8.
  pose proof (tagged_app _ _ _ _ _ _ (tagged_part _ _ _ (want_hod c) (fun _ => tagged_hod (g_hod_section c) (d_n1 X r))) T7) as T8.
  exact (keys_app _ _ _ _ _ _ matter_nodup K8 tagged_matter T8 ltac:(notin_list) ltac:(intros ? []) ltac:(bases_ok)
    ltac:(intros ? [<-|[<-|[<-|[]]]]; assumption)).
Qed.
