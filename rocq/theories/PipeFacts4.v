(** Consequences for the outputs of execute. *)
From Coq Require Import Decimal DecimalString Ascii.
From Verif Require Import Base Spec Quad Interp BaseFacts QuadFacts InterpFacts HodModel PkModel AddModel AddSpec AddFacts AddFacts2 PipeModel PipeSpec PipeFacts PipeFacts2 PipeFacts3.
Open Scope string_scope.

Section Out.
  Variable X : ext.
  Implicit Types (p : uparams (xa X)) (h : nat -> obj (xa X)).

  (** *** Entries of the log *)
  Definition comps : list (string * string) := [("1h", "p_k_1h"); ("2h", "p_k_2h"); ("tot", "p_k")].
  Definition pick (v : arr3 * arr3 * arr3) (comp : string) : arr3 :=
    if String.eqb comp "1h" then fst (fst v) else if String.eqb comp "2h" then snd (fst v) else snd v.
  Lemma triple_pick p h mode v comp key : triple X p h mode v -> In (comp, key) comps -> answer p h mode comp = Ok (pick v comp).
  Proof. intros (A & B & C) I. cbn in I. destruct I as [E|[E|[E|[]]]]; injection E as <- <-; assumption. Qed.
  Lemma in_pk_grid base suf v nb w : In w (pk_grid base suf v nb) <->
    exists comp key, In (comp, key) comps /\ w = {| w_sec := base ++ suf; w_key := key; w_val := Some (r_val (pick v comp) nb) |}.
  Proof.
    unfold pk_grid. cbn [In]. split.
    - intros [<-|[<-|[<-|[]]]]; [exists "1h", "p_k_1h"|exists "2h", "p_k_2h"|exists "tot", "p_k"]; (split; [cbn; tauto|reflexivity]).
    - intros (comp & key & I & ->). cbn in I. destruct I as [E|[E|[E|[]]]]; injection E as <- <-; cbn; tauto.
  Qed.
  Lemma in_save_bins base extra bins v w : In w (save_bins base extra bins v) <->
    exists nb, (nb < bins)%nat /\
      ((exists comp key, In (comp, key) comps /\ w = {| w_sec := bin_name base bins nb; w_key := key; w_val := Some (r_val (pick v comp) nb) |}) \/
       (exists s k, extra = Some (s, k) /\ w = note (bin_name s bins nb) k)).
  Proof.
    unfold save_bins. rewrite in_flat_map. split.
    - intros (nb & I & J). apply in_seq in I. exists nb. split; [lia|]. apply in_app_or in J as [J|J].
      + left. apply in_pk_grid in J as (comp & key & I' & ->). rewrite suffix_name. eauto.
      + right. destruct extra as [[s k]|]; [|destruct J]. destruct J as [<-|[]]. rewrite suffix_name. eauto.
    - intros (nb & L & J). exists nb. split; [apply in_seq; lia|]. apply in_or_app. destruct J as [(comp & key & I & ->)|(s & k & -> & ->)].
      + left. apply in_pk_grid. rewrite suffix_name. eauto.
      + right. left. now rewrite suffix_name.
  Qed.
  Lemma written_bins p h mode base extra bins v lg : triple X p h mode v ->
    (forall w, In w (save_bins base extra bins v) -> In w lg) -> written p h mode base bins lg.
  Proof.
    intros T S nb comp key L I. exists (pick v comp). split; [exact (triple_pick _ _ _ _ _ _ T I)|].
    apply S. apply in_save_bins. exists nb. split; [exact L|]. left. eauto.
  Qed.
  (** Only the object behind the reference matters. *)
  Lemma answer_heap p h h' mode comp : u_model p = Some 0%nat -> h 0%nat = h' 0%nat -> answer p h mode comp = answer p h' mode comp.
  Proof. intros M E. rewrite !asked_pure. unfold pure, power_1_value. rewrite M. cbn [bind deref]. now rewrite E. Qed.
  Lemma triple_heap p h h' mode v : u_model p = Some 0%nat -> h 0%nat = h' 0%nat -> triple X p h mode v -> triple X p h' mode v.
  Proof. intros M E. unfold triple. now rewrite !(answer_heap p h h') by assumption. Qed.
  Lemma align_model c b i : u_model (alignment_request X c b i) = Some 0%nat.
  Proof. unfold alignment_request. now destruct (g_split c). Qed.

  Lemma plain_matter w : In w matter_keys -> w_val w = None.
  Proof. unfold matter_keys. intro H. apply in_map_iff in H as (x & <- & _). reflexivity. Qed.
  Lemma plain_hod sec n w : In w (hod_keys sec n) -> w_val w = None.
  Proof.
    unfold hod_keys. intros [<-|H]; [reflexivity|]. apply in_flat_map in H as (nb & _ & H). apply in_map_iff in H as (x & <- & _). reflexivity.
  Qed.
  Lemma plain_obs sec n w : In w (obs_keys sec n) -> w_val w = None.
  Proof.
    unfold obs_keys. intros [<-|H]; [reflexivity|]. apply in_flat_map in H as (nb & _ & H). apply in_map_iff in H as (x & <- & _). reflexivity.
  Qed.

  Ltac inlog := unfold full_log; repeat rewrite in_app_iff; unfold part.

  Theorem outputs_complete c b st st' lg : execute X c b (st, []) = ((st', lg), Ok tt) ->
    exists i o1 n1, reads X c b st i /\
      x_update X (p_power X st) (kwargs X i) = (o1, Ok tt) /\
      (want_hod c = true -> x_bins X o1 = Ok n1) /\
      (g_mm c = true -> g_response c = false ->
         written (request_single X b (kwargs X i)) (fun _ => o1) "mm" "matter_power_nl" 1 lg) /\
      (forall mode base, In (mode, base) (galaxy_kinds c) ->
         written (request_single X b (kwargs X i)) (fun _ => o1) mode base n1 lg) /\
      (alignment c = false -> p_power X st' = o1) /\
      (alignment c = true -> exists o2 n2, x_update X o1 (x_hod X (g_ia_1 c)) = (o2, Ok tt) /\ x_bins X o2 = Ok n2 /\
         p_power X st' = o2 /\
         forall mode base, In (mode, base) (alignment_kinds c) ->
         written (alignment_request X c b i) (fun _ => o2) mode base n2 lg).
  Proof.
    intro H. destruct (execute_ok X c b st st' [] lg H) as (r & (R1 & R2 & R3 & R4 & R5 & R6 & R7 & R8 & R9 & R10 & R11 & R12 & R13) & L).
    cbn [app] in L. subst lg. exists (d_in X r), (d_o1 X r), (d_n1 X r).
    split; [exact R1|]. split; [exact R2|]. split; [exact R4|].
    split; [|split; [|split]].
    - intros M R. specialize (R6 ltac:(now rewrite M)). intros nb comp key Hn I. assert (nb = 0)%nat by lia. subst nb.
      exists (pick (d_mm X r) comp). split; [exact (triple_pick _ _ _ _ _ _ R6 I)|].
      inlog. rewrite M, R. cbn [negb andb]. do 3 right. left. apply in_pk_grid. exists comp, key. split; [exact I|reflexivity].
    - intros mode base I. unfold galaxy_kinds in I. apply in_app_or in I as [I|I].
      + destruct (g_gg c) eqn:G; [|destruct I]. destruct I as [E|[]]. injection E as <- <-.
        apply (written_bins _ _ _ _ (Some ("galaxy_linear_bias", "bg_linear")) _ (d_gg X r)); [now apply R7|].
        intros w W. inlog. rewrite G. tauto.
      + destruct (g_gm c) eqn:G; [|destruct I]. destruct I as [E|[]]. injection E as <- <-.
        apply (written_bins _ _ _ _ (Some ("galaxy_matter_linear_bias", "bgm_linear")) _ (d_gm X r)); [now apply R8|].
        intros w W. inlog. rewrite G. tauto.
    - intro A. now rewrite A in R13.
    - intro A. rewrite A in R13. destruct (R9 A) as [R9a R9b]. exists (d_o2 X r), (d_n2 X r).
      split; [exact R9a|]. split; [exact R9b|]. split; [exact R13|].
      intros mode base I. unfold alignment_kinds in I. apply in_app_or in I as [I|I]; [|apply in_app_or in I as [I|I]].
      + destruct (g_II c) eqn:G; [|destruct I]. destruct I as [E|[]]. injection E as <- <-.
        destruct (R10 A eq_refl) as (h & Eh & T).
        apply (written_bins _ _ _ _ None _ (d_ii X r)); [apply (triple_heap _ h); [apply align_model|exact Eh|exact T]|].
        intros w W. inlog. rewrite A. unfold part. rewrite !in_app_iff, G. tauto.
      + destruct (g_gI c) eqn:G; [|destruct I]. destruct I as [E|[]]. injection E as <- <-.
        destruct (R11 A eq_refl) as (h & Eh & T).
        apply (written_bins _ _ _ _ None _ (d_gi X r)); [apply (triple_heap _ h); [apply align_model|exact Eh|exact T]|].
        intros w W. inlog. rewrite A. unfold part. rewrite !in_app_iff, G. tauto.
      + destruct (g_mI c) eqn:G; [|destruct I]. destruct I as [E|[]]. injection E as <- <-.
        destruct (R12 A eq_refl) as (h & Eh & T).
        apply (written_bins _ _ _ _ None _ (d_mi X r)); [apply (triple_heap _ h); [apply align_model|exact Eh|exact T]|].
        intros w W. inlog. rewrite A. unfold part. rewrite !in_app_iff, G. tauto.
  Qed.

  (** Nothing else is a spectrum. *)
  Lemma bins_kind mode base extra bins v w kinds : In (mode, base) kinds -> In w (save_bins base extra bins v) -> w_val w <> None ->
    from_kinds kinds bins w.
  Proof.
    intros K I N. apply in_save_bins in I as (nb & L & [(comp & key & C & ->)|(s & k & _ & ->)]); [|now cbn in N].
    exists mode, base, nb. split; [exact K|]. split; [exact L|]. split; [reflexivity|]. cbn in C |- *.
    destruct C as [E|[E|[E|[]]]]; injection E as <- <-; tauto.
  Qed.
  Theorem outputs_sound c b st st' lg : execute X c b (st, []) = ((st', lg), Ok tt) ->
    forall w, In w lg -> w_val w <> None ->
    (g_mm c = true /\ g_response c = false /\ w_sec w = "matter_power_nl" /\ In (w_key w) ["p_k_1h"; "p_k_2h"; "p_k"]) \/
    (exists n1, from_kinds (galaxy_kinds c) n1 w) \/ (alignment c = true /\ exists n2, from_kinds (alignment_kinds c) n2 w).
  Proof.
    intros H w I N. destruct (execute_ok X c b st st' [] lg H) as (r & (_ & _ & _ & _ & R5 & _) & L). cbn [app] in L. subst lg.
    unfold full_log in I. repeat rewrite in_app_iff in I. unfold part in I.
    destruct I as [I|[I|[I|[I|[I|[I|I]]]]]].
    - exfalso. now apply N, plain_matter.
    - exfalso. destruct (want_hod c); [|destruct I]. now apply N, (plain_hod _ _ _ I).
    - exfalso. destruct R5 as [E|(_ & _ & n & _ & E)]; rewrite E in I; [destruct I|]. now apply N, (plain_obs _ _ _ I).
    - left. destruct (g_mm c), (g_response c); cbn [negb andb] in I; try destruct I.
      + do 2 (split; [reflexivity|]). subst w. split; [reflexivity|cbn; tauto].
      + do 2 (split; [reflexivity|]). apply in_pk_grid with (base := "matter_power_nl") (suf := "") (v := d_mm X r) (nb := 0%nat) in I || idtac.
        destruct H0 as [<-|[<-|[]]]; split; cbn; tauto.
    - right. left. exists (d_n1 X r). destruct (g_gg c) eqn:G; [|destruct I].
      apply (bins_kind "gg" _ _ _ _ _ _) with (2 := I); [|exact N]. unfold galaxy_kinds. rewrite G. now left.
    - right. left. exists (d_n1 X r). destruct (g_gm c) eqn:G; [|destruct I].
      apply (bins_kind "gm" _ _ _ _ _ _) with (2 := I); [|exact N]. unfold galaxy_kinds. rewrite G. apply in_or_app. right. now left.
    - right. right. destruct (alignment c) eqn:A; [|destruct I]. split; [reflexivity|]. exists (d_n2 X r).
      repeat rewrite in_app_iff in I. destruct I as [I|[I|[I|I]]].
      + exfalso. now apply N, (plain_hod _ _ _ I).
      + destruct (g_II c) eqn:G; [|destruct I]. apply (bins_kind "ii" _ _ _ _ _ _) with (2 := I); [|exact N].
        unfold alignment_kinds. rewrite G. now left.
      + destruct (g_gI c) eqn:G; [|destruct I]. apply (bins_kind "gi" _ _ _ _ _ _) with (2 := I); [|exact N].
        unfold alignment_kinds. rewrite G. apply in_or_app. right. now left.
      + destruct (g_mI c) eqn:G; [|destruct I]. apply (bins_kind "mi" _ _ _ _ _ _) with (2 := I); [|exact N].
        unfold alignment_kinds. rewrite G. apply in_or_app. right. apply in_or_app. right. now left.
  Qed.

  (** *** The second population *)
  Lemma ones n x q : interp_lin n x (fun _ => 1%R) q = 1%R.
  Proof. unfold interp_lin. cbv zeta. unfold Rdiv. rewrite Rminus_diag_eq by reflexivity. ring. Qed.
  Theorem split_value b q q2 h mode comp v : mode <> "mm" -> answer (request_split X b q q2) h mode comp = Ok v ->
    exists v1, answer (request_single X b q) h mode comp = Ok v1 /\ forall nb i j, r_val v nb i j = r_val v1 nb i j.
  Proof.
    intros NM. rewrite !asked_pure. unfold pure.
    change (power_1_value (request_split X b q q2)) with (Ok (Shared (A := xa X) 0%nat)).
    change (power_1_value (request_single X b q)) with (Ok (Shared (A := xa X) 0%nat)).
    cbn [bind deref]. destruct (bind (o_spec (xa X) (h 0%nat) mode) (component comp)) as [e|]; cbn [bind]; [|discriminate].
    change (power_2_value (request_single X b q) (h 0%nat)) with (Ok (@None (obj (xa X)))). cbn [bind].
    change (power_2_value (request_split X b q q2) (h 0%nat)) with (bind (update_obj (xa X) (h 0%nat) q2) (fun o => Ok (Some o))).
    destruct (update_obj (xa X) (h 0%nat) q2) as [o2|]; cbn [bind]; [|discriminate].
    destruct (bind (o_spec (xa X) o2 mode) (component comp)) as [e2|]; cbn [bind]; [|discriminate].
    destruct (String.eqb_spec mode "mm") as [->|_]; [contradiction|].
    unfold frac_1_value. cbn [u_f u_fz u_nz u_z request_split request_single].
    destruct (x_grid X b) as [[n z] [nk k]] eqn:G. cbn [fst snd]. rewrite Nat.eqb_refl. cbn [bind].
    unfold add_spectra. cbn [fst snd]. rewrite bcast_id. cbn [bind]. intro H. injection H as <-. eexists. split; [reflexivity|].
    intros nb i j. cbn [r_val]. unfold interp1d. rewrite ones.
    assert (EE : forall o w, extrapolate (request_split X b q q2) o w = extrapolate (request_single X b q) o w) by reflexivity.
    rewrite EE. unfold mix. destruct (String.eqb mode "gm" || String.eqb mode "mi")%bool; ring.
  Qed.
End Out.
