(** What a run of the legacy module leaves, bin by bin. *)
From Coq Require Import ZArith.
From Verif Require Import Base Spec Quad Interp HodModel PkModel PipeModel OptModel ChainModel PredModel MiniModel IaModel AupModel AupFacts AupFacts3 LiaModel LhModel LhFacts LrModel LkModel LkSpec LkFacts3.
Open Scope R_scope.

Section Run.
  Variables (over : bool) (dw : dblock -> list R -> A2 -> res A2) (nd : arrays) (c : kconfig).
  Section Stage.
  Variables (z k mass : list R) (x : lk) (W : option A3) (nl : A2) (n : Z) (nb : nat).
  Notation sfx := (kc_pop c ++ bin_suffix n nb)%string.
  Notation tables b s t := (left_at z k x b s t).
  Definition bias_at (b : dblock) (s nme : string) (f : A2) : Prop :=
    b s "z"%string = Some (BArr z) /\ b s "k_h"%string = Some (BArr k) /\ b s nme = Some (BTab (grid2 (x_nz x) (x_nk x) f)).
  Ltac split_puts D b1 D1 D2 :=
    rewrite puts_app in D; apply then_ok in D; destruct D as [D1 D2];
    match type of D1 with snd (do_puts ?o ?l ?b) = _ => let e := fresh in destruct (do_puts o l b) as [b1 e] eqn:D; cbn [fst snd] in D1, D2; subst e; rename D into D1 end.
  Lemma pair_of {A B} (p : A * B) v : snd p = v -> p = (fst p, v). Proof. destruct p; cbn; now intros ->. Qed.

  Definition bin_done (b b' : dblock) (h : bin) (pe : A2) : Prop :=
    (kc_gg c = true -> exists t, answered c x W nl (lk_gg x c h) = Ok t /\ tables b' ("galaxy_power" ++ sfx)%string t /\ bias_at b' ("galaxy_linear_bias" ++ sfx)%string "bg_linear" (lk_bias_gg x h)) /\
    (kc_gm c = true -> exists t, answered c x W nl (lk_gm x c h) = Ok t /\ tables b' ("matter_galaxy_power" ++ sfx)%string t /\ bias_at b' ("galaxy_matter_linear_bias" ++ sfx)%string "bgm_linear" (lk_bias_gm x h)) /\
    (kc_II c = true -> exists t, answered c x W nl (lk_II x c h pe) = Ok t /\ tables b' ("intrinsic_power" ++ sfx)%string t) /\
    (kc_gI c = true -> exists t, answered c x W nl (lk_gI x c h pe) = Ok t /\ tables b' ("galaxy_intrinsic_power" ++ sfx)%string t) /\
    (kc_mI c = true -> exists t, answered c x W nl (lk_mI x c h pe) = Ok t /\ tables b' ("matter_intrinsic_power" ++ sfx)%string t).
  Lemma bin_ok b b' : lk_bin over c n z k mass x W nl nb b = (b', Ok tt) -> exists h b1 pe, bin_read c n nb z k mass x W b = Ok h /\ lk_effective c b1 z x = Ok pe /\
    (forall s m, (forall q, In q (requested c) -> s <> (q ++ sfx)%string) -> b1 s m = b s m) /\ bin_done b b' h pe.
  Proof.
    unfold lk_bin. destruct (bin_read c n nb z k mass x W b) as [h|e]; [|discriminate]. intros E. apply then_ok in E. destruct E as [E1 E].
    destruct (carry_out over (bin_first c sfx z k x W nl h) b) as [b1 r1] eqn:C1. cbn [fst snd] in E1, E. subst r1.
    destruct (lk_effective c b1 z x) as [pe|e] eqn:EF; [|discriminate]. exists h, b1, pe. split; [reflexivity|]. split; [exact EF|]. split.
    { intros s m N. eapply carry_apart; [exact C1|]. intros q I S. apply first_sec in I. destruct I as (y & Y & S'). apply (N y Y). congruence. }
    assert (S1 := fun p => first_sec c z k x W nl n nb h p). assert (S2 := fun p => second_sec c z k x W nl n nb h pe p).
    apply carry_ok in C1. destruct C1 as [D1 O1]. apply carry_ok in E. destruct E as [D2 O2]. unfold bin_first in *. unfold bin_second in *.
    apply and_then_ok in O1. destruct O1 as (Og & Om & L1). rewrite L1 in D1. apply and_then_ok in O2. destruct O2 as (OI & O2 & L2). rewrite L2 in D2. apply and_then_ok in O2. destruct O2 as (OgI & OmI & L3). rewrite L3 in D2.
    split_puts D1 ba Dg Dm. rewrite puts_app in D2. apply then_ok in D2. destruct D2 as [D2a D2].
    destruct (do_puts over (fst (answer_puts c (kc_II c) [] ("intrinsic_power" ++ sfx) z k x W nl (lk_II x c h pe))) b1) as [bc rc] eqn:DI. cbn [fst snd] in D2a, D2. subst rc.
    rewrite puts_app in D2. apply then_ok in D2. destruct D2 as [D2a D2].
    destruct (do_puts over (fst (answer_puts c (kc_gI c) [] ("galaxy_intrinsic_power" ++ sfx) z k x W nl (lk_gI x c h pe))) bc) as [bd rd] eqn:DgI. cbn [fst snd] in D2a, D2. subst rd. rename D2 into DmI.
    assert (NQ : forall q s, In q lk_bases -> In s lk_bases -> q <> s -> (q ++ sfx)%string <> (s ++ sfx)%string) by (intros q s Q S N Q'; apply bases_differ in Q'; [intuition|assumption|assumption]).
    Ltac away NQ := intros p' I'; apply (answer_sec _ _ _ _ _ _ 0%nat) in I'; destruct I' as [_ [I'|I']]; [first [contradiction|destruct I' as [<-|I']; [unfold grid_put, psec|contradiction]]|rewrite I']; apply NQ; first [discriminate|cbn; tauto].
    split; [|split; [|split; [|split]]]; intros ON.
    - destruct (answer_left over dw c z k x W nl nb _ _ _ _ _ _ (pair_of _ _ Og) ON Dg) as (t & A & L). exists t. split; [exact A|]. split.
      + do 4 (eapply left_kept; [eassumption|away NQ|]). exact L.
      + unfold bias_at. rewrite !(puts_apart _ _ _ _ _ _ _ DmI) by away NQ. rewrite !(puts_apart _ _ _ _ _ _ _ DgI) by away NQ. rewrite !(puts_apart _ _ _ _ _ _ _ DI) by away NQ. rewrite !(puts_apart _ _ _ _ _ _ _ Dm) by away NQ.
        eapply (bias_left over dw c z k x W nl nb); [| |exact Og|exact ON|exact Dg]; [intros p [-> | ->]; discriminate|apply NQ; cbn; (tauto || discriminate)].
    - destruct (answer_left over dw c z k x W nl nb _ _ _ _ _ _ (pair_of _ _ Om) ON Dm) as (t & A & L). exists t. split; [exact A|]. split.
      + do 3 (eapply left_kept; [eassumption|away NQ|]). exact L.
      + unfold bias_at. rewrite !(puts_apart _ _ _ _ _ _ _ DmI) by away NQ. rewrite !(puts_apart _ _ _ _ _ _ _ DgI) by away NQ. rewrite !(puts_apart _ _ _ _ _ _ _ DI) by away NQ.
        eapply (bias_left over dw c z k x W nl nb); [| |exact Om|exact ON|exact Dm]; [intros p [-> | ->]; discriminate|apply NQ; cbn; (tauto || discriminate)].
    - destruct (answer_left over dw c z k x W nl nb _ _ _ _ _ _ (pair_of _ _ OI) ON DI) as (t & A & L). exists t. split; [exact A|]. do 2 (eapply left_kept; [eassumption|away NQ|]). exact L.
    - destruct (answer_left over dw c z k x W nl nb _ _ _ _ _ _ (pair_of _ _ OgI) ON DgI) as (t & A & L). exists t. split; [exact A|]. do 1 (eapply left_kept; [eassumption|away NQ|]). exact L.
    - destruct (answer_left over dw c z k x W nl nb _ _ _ _ _ _ (pair_of _ _ OmI) ON DmI) as (t & A & L). exists t. split; [exact A|]. exact L.
  Qed.
  End Stage.

  (** ** Reading is not disturbed *)
  Definition read_here (s : string) : Prop :=
    s = kc_hod c \/ s = "halo_model_parameters"%string \/ s = small c \/ s = large c \/ s = "wkm"%string \/ s = "pk_parameters"%string.
  Lemma each_ext {A} m (f g : nat -> res A) : (forall i, f i = g i) -> each m f = each m g.
  Proof. intros E. induction m as [|m IH]; cbn; [reflexivity|]. now rewrite IH, E. Qed.
  Lemma bin_read_ext n nb z k mass x W b b' : (forall s m, read_here s -> b' s m = b s m) -> bin_read c n nb z k mass x W b' = bin_read c n nb z k mass x W b.
  Proof.
    intros E. assert (Eh : forall m, b' (kc_hod c) m = b (kc_hod c) m) by (intros; apply E; now left).
    assert (Ep : forall m, b' "halo_model_parameters"%string m = b "halo_model_parameters"%string m) by (intros; apply E; unfold read_here; tauto).
    assert (Es : forall m, b' (small c) m = b (small c) m) by (intros; apply E; unfold read_here; tauto).
    assert (El : forall m, b' (large c) m = b (large c) m) by (intros; apply E; unfold read_here; tauto).
    assert (Ew : forall m, b' "wkm"%string m = b "wkm"%string m) by (intros; apply E; unfold read_here; tauto).
    assert (Ek : forall m, b' "pk_parameters"%string m = b "pk_parameters"%string m) by (intros; apply E; unfold read_here; tauto).
    assert (H1 : lk_hods c b' (bin_suffix n nb) z mass = lk_hods c b (bin_suffix n nb) z mass).
    { unfold lk_hods, sized, sized_table, array, table_at. cbv zeta. rewrite !Eh. reflexivity. }
    assert (H2 : lk_ia c b' z k mass = lk_ia c b z k mass).
    { unfold lk_ia, sized, by_mass, block_num, array. rewrite !El, !Es.
      replace (get_satellite_alignment b' k mass (List.length z) (kc_pop c)) with (get_satellite_alignment b k mass (List.length z) (kc_pop c)); [reflexivity|].
      apply each_ext. intros i. unfold sat_alignment_at, table_at, array. rewrite !Ew. reflexivity. }
    assert (H3 : lk_poisson (kc_poisson c) b' mass = lk_poisson (kc_poisson c) b mass) by (unfold lk_poisson, block_or_none; rewrite !Ek; reflexivity).
    unfold bin_read. rewrite H1, H2, H3. unfold block_num. rewrite !Ep. reflexivity.
  Qed.
  Lemma effective_ext z x b b' : (forall m, b' "matter_power_nl"%string m = b "matter_power_nl"%string m) -> (forall m, b' "pk_parameters"%string m = b "pk_parameters"%string m) -> lk_effective c b' z x = lk_effective c b z x.
  Proof. intros E1 E2. unfold lk_effective, lk_power, sized_table, array, table_at, block_num. rewrite !E1, !E2. reflexivity. Qed.
  Lemma read_apart p s : hod_apart c -> In p lk_bases -> ~ read_here (p ++ s)%string.
  Proof.
    intros (_ & _ & A) P [R|[R|[R|[R|[R|R]]]]]; [exact (A _ _ P (eq_sym R))|..]; unfold small, large in R; cbn in P; decompose [or] P; subst; try contradiction; cbn in R; discriminate R.
  Qed.
  Lemma read_matter : hod_apart c -> ~ read_here "matter_power_nl" /\ ~ read_here "matter_power_hm".
  Proof. intros (A & B & _). split; intros [R|[R|[R|[R|[R|R]]]]]; try discriminate R; congruence. Qed.

  (** ** All bins *)
  Lemma turn_app l1 l2 b : in_turn (l1 ++ l2)%list b = then_ (in_turn l1 b) (in_turn l2).
  Proof. revert b. induction l1 as [|f l1 IH]; intros b; [reflexivity|]. cbn [app in_turn]. unfold then_ at 1 3. destruct (f b) as [b1 [u|e]]; cbn [fst snd]; [apply IH|reflexivity]. Qed.
  Section Bins.
    Variables (z k mass : list R) (x : lk) (W : option A3) (nl : A2) (n : Z).
    Notation stage := (lk_bin over c n z k mass x W nl).
    Lemma bins_apart l : forall b b' r s m, in_turn (map stage l) b = (b', r) -> (forall nb q, In nb l -> In q (requested c) -> s <> (q ++ kc_pop c ++ bin_suffix n nb)%string) -> b' s m = b s m.
    Proof.
      induction l as [|nb l IH]; intros b b' r s m E N; [cbn in E; now injection E as <- _|]. cbn [map in_turn] in E. unfold then_ in E. destruct (stage nb b) as [b1 r1] eqn:S1. cbn [fst snd] in E.
      assert (F : b1 s m = b s m) by (eapply bin_apart; [exact S1|intros q Q; apply (N nb q); [now left|exact Q]]).
      destruct r1 as [u|e]; [|injection E as <- _; exact F]. rewrite <- F. eapply IH; [exact E|]. intros j q J. apply N. now right.
    Qed.
    Definition bin_left (b b' : dblock) (nb : nat) : Prop := exists h pe, bin_read c n nb z k mass x W b = Ok h /\ lk_effective c b z x = Ok pe /\ bin_done z k x W nl n nb b b' h pe.
    Lemma bins_left b b' : hod_apart c -> in_turn (map stage (seq 0 (Z.to_nat n))) b = (b', Ok tt) -> forall nb, (nb < Z.to_nat n)%nat -> bin_left b b' nb.
    Proof.
      intros HA E nb B. assert (SQ : seq 0 (Z.to_nat n) = (seq 0 nb ++ nb :: seq (nb + 1) (Z.to_nat n - nb - 1))%list).
      { replace (Z.to_nat n) with (nb + (1 + (Z.to_nat n - nb - 1)))%nat at 1 by lia. rewrite seq_app, seq_app. cbn [seq app]. now replace (0 + nb + 1)%nat with (nb + 1)%nat by lia. }
      rewrite SQ, map_app, turn_app in E. apply then_ok in E. destruct E as [E1 E]. destruct (in_turn (map stage (seq 0 nb)) b) as [b0 r0] eqn:T0. cbn [fst snd] in E1, E. subst r0.
      cbn [map in_turn] in E. apply then_ok in E. destruct E as [E1 E]. destruct (stage nb b0) as [b2 r2] eqn:T1. cbn [fst snd] in E1, E. subst r2.
      destruct (bin_ok _ _ _ _ _ _ _ _ _ _ T1) as (h & b1 & pe & R & EF & F1 & D).
      assert (F0 : forall s m, (forall p t, In p lk_bases -> s <> (p ++ t)%string) -> b0 s m = b s m).
      { intros s m A. eapply bins_apart; [exact T0|]. intros j q _ Q. apply A. eapply requested_base; eauto. }
      assert (F01 : forall s m, (forall p t, In p lk_bases -> s <> (p ++ t)%string) -> b1 s m = b s m).
      { intros s m A. rewrite F1; [now apply F0|]. intros q Q. apply A. eapply requested_base; eauto. }
      assert (RA : forall s, read_here s -> forall p t, In p lk_bases -> s <> (p ++ t)%string) by (intros s S p t P ->; eapply read_apart; eauto).
      exists h, pe. split; [|split].
      - rewrite <- R. symmetry. apply bin_read_ext. intros s m S. apply F0. now apply RA.
      - rewrite <- EF. symmetry. apply effective_ext; intros m; apply F01; intros p t P Q; [|apply (RA "pk_parameters"%string) in Q; [exact Q|unfold read_here; tauto|exact P]].
        symmetry in Q. apply bases_matter in Q; assumption.
      - assert (K : forall q m, In q lk_bases -> b' (q ++ kc_pop c ++ bin_suffix n nb)%string m = b2 (q ++ kc_pop c ++ bin_suffix n nb)%string m).
        { intros q m Q. eapply bins_apart; [exact E|]. intros j p J P S. apply requested_base in P. apply bases_differ in S; [|assumption|assumption]. destruct S as [_ S].
          apply str_app_inj in S. apply in_seq in J. apply suffix_inj in S; lia. }
        unfold bin_done, left_at, bias_at in *. rewrite !K by (cbn; tauto). exact D.
    Qed.
  End Bins.
End Run.
