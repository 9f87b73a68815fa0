(** A run, and the values it leaves. *)
From Coq Require Import ZArith.
From Verif Require Import Base Spec Quad Interp IaModel HodModel PkModel PipeModel OptModel FftModel ChainModel MiniModel PredModel AupModel AupFacts AupFacts3 LiaModel LiaSpec LhModel LhSpec LhFacts LhFacts5 LrModel LrSpec LkModel LkSpec LkSpec2 LkFacts LkFacts2 LkFacts3 LkFacts4 LkFacts5.
Open Scope R_scope.

Section Run.
  Variables (over : bool) (dw : dblock -> list R -> A2 -> res A2) (nd : arrays) (c : kconfig).
  Definition msec : string := if kc_response c then "matter_power_hm" else "matter_power_nl".
  Lemma matter_iff : asks_matter c <-> kc_matter c = true.
  Proof. unfold asks_matter, kc_matter. destruct (kc_mm c), (kc_gm c), (kc_mI c); intuition discriminate. Qed.
  Lemma galaxies_iff : asks_galaxies c <-> kc_galaxy c = true.
  Proof. unfold asks_galaxies, kc_galaxy, kc_align. destruct (kc_gg c), (kc_gm c), (kc_gI c), (kc_mI c), (kc_II c); intuition discriminate. Qed.
  Lemma mm_sec z k x W b p : lk_profile c b x = Ok W -> In p (mm_puts c z k x W) -> matter_section c (psec p).
  Proof.
    unfold lk_profile, mm_puts, matters, matter_section. destruct W as [W|]; [|contradiction]. pose proof matter_iff as MI. destruct (kc_matter c); [|discriminate]. intros _. destruct (kc_mm c), (kc_response c); cbn [orb andb]; intros I; try contradiction; apply three_sec in I; intuition.
    Unshelve. all: exact 0%nat.
  Qed.
  Lemma run_left b b' : (kc_galaxy c = true -> hod_apart c) -> lk_execute over dw nd c b = (b', Ok tt) -> exists z k mass x nl W, lk_read dw nd c b = Ok (z, k, mass, x, nl) /\ lk_profile c b x = Ok W /\
    (matters c = true -> exists V, W = Some V /\ left_at z k x b' msec (lk_mm x c V)) /\
    (kc_galaxy c = true -> exists n bm, b (kc_hod c) "nbins"%string = Some (BInt n) /\ (forall s m, ~ matter_section c s -> bm s m = b s m) /\
       forall nb, (nb < Z.to_nat n)%nat -> exists h pe, bin_read c n nb z k mass x W b = Ok h /\ lk_effective c bm z x = Ok pe /\ bin_done c z k x W nl n nb bm b' h pe).
  Proof.
    intros HH. unfold lk_execute. destruct (lk_read dw nd c b) as [[[[[z k] mass] x] nl]|e] eqn:ER; [|discriminate]. destruct (lk_profile c b x) as [W|e] eqn:EP; [|discriminate]. intros E.
    apply then_ok in E. destruct E as [E1 E]. destruct (do_puts over (mm_puts c z k x W) b) as [bm r] eqn:D. cbn [fst snd] in E1, E. subst r.
    exists z, k, mass, x, nl, W. split; [reflexivity|]. split; [exact EP|].
    assert (FM : forall s m, ~ matter_section c s -> bm s m = b s m) by (intros s m N; eapply puts_apart; [exact D|intros p I <-; apply N; eapply mm_sec; eauto]).
    assert (FB : forall m, b' msec m = bm msec m).
    { intros m. destruct (kc_galaxy c) eqn:G; [|now injection E as <-]. destruct (int_at bm (kc_hod c) "nbins") as [n|e]; [|injection E as <- _; reflexivity].
      eapply bins_apart; [exact E|]. intros j q _ Q S. apply requested_base in Q. symmetry in S. revert S. unfold msec. destruct (kc_response c); intros S; eapply bases_matter in S; assumption. }
    split.
    - intros M. unfold mm_puts in D. rewrite M in D. unfold lk_profile in EP. unfold matters in M. destruct (kc_matter c); [|discriminate].
      destruct W as [V|]; [|destruct (kc_mead c) as [[| |]|]; repeat (apply bind_inv in EP; destruct EP as (? & ? & EP)); discriminate EP].
      exists V. split; [reflexivity|]. apply (three_left over dw z k x (fun _ _ => 0) 0%nat) in D. unfold left_at in *. rewrite !FB. exact D.
    - intros G. rewrite G in E. destruct (int_at bm (kc_hod c) "nbins") as [n|e] eqn:NB; [|discriminate]. specialize (HH G). exists n, bm.
      assert (NH : ~ matter_section c (kc_hod c)). { destruct HH as (A & B & _). intros [_ [[_ X]|(_ & _ & X)]]; congruence. }
      split; [|split; [exact FM|]].
      + unfold int_at in NB. rewrite FM in NB by exact NH. destruct (b (kc_hod c) "nbins"%string) as [[| | | |]|]; try discriminate NB. congruence.
      + intros nb B. destruct (bins_left over dw c z k mass x W nl n bm b' HH E nb B) as (h & pe & R & EF & DN). exists h, pe. split; [|auto]. rewrite <- R. symmetry. apply (bin_read_ext dw). intros s m S. apply FM.
        intros MS. destruct (read_matter c HH) as [R1 R2]. destruct MS as [_ [[_ X]|(_ & _ & X)]]; rewrite X in S; contradiction.
  Qed.
  (** ** Values *)
  Section Values.
    Variables (b b' : dblock) (S : spectra) (pl : A2).
    Hypotheses (HA : asks_alike c S) (HG : halos_agree dw nd c b S pl) (P : pk_lin S = Ok pl) (HH : kc_galaxy c = true -> hod_apart c) (E : lk_execute over dw nd c b = (b', Ok tt)).
    Lemma holds_axis l n f : same_axis l n f -> holds_array (Some (BArr l)) n f.
    Proof. intros [L V]. exists l. auto. Qed.
    Lemma result_of z k x s nme t f : halos_alike x S pl -> same_axis z (s_nz S) (s_zvec S) -> same_axis k (s_nk S) (s_kvec S) ->
      b' s "z"%string = Some (BArr z) -> b' s "k_h"%string = Some (BArr k) -> b' s nme = Some (BTab (grid2 (x_nz x) (x_nk x) t)) -> within_grid S t f -> holds_result b' s nme S f.
    Proof.
      intros H AZ AK Z K T G. unfold holds_result. rewrite Z, K, T, (ha_nz _ _ _ H), (ha_nk _ _ _ H). split; [now apply holds_axis|]. split; [now apply holds_axis|]. apply holds_grid. exact G.
    Qed.
    Lemma matter_values nb r : matters c = true -> baryons_agree c b S nb -> power_spectrum_mm_raw S = Ok r ->
      holds_result b' msec "p_k_1h" S (pk_1h r nb) /\ holds_result b' msec "p_k_2h" S (pk_2h r nb) /\ holds_result b' msec "p_k" S (pk_tot r nb).
    Proof.
      intros M BA R. destruct (run_left b b' HH E) as (z & k & mass & x & nl & W & ER & EP & LM & _). destruct (read_alike _ _ _ _ _ _ HA HG _ _ _ _ _ ER) as (H & F & SM & HB & NL & AZ & AK & AM).
      destruct (LM M) as (V & -> & (Z & K & T1 & T2 & T3)). pose proof (profile_read _ _ _ _ HA _ nb V H F BA EP) as HV.
      destruct (mm_alike x c S pl nb H HA P HB V r (SM M) HV R) as (E1 & E2 & E3). repeat split; eapply result_of; eauto; first [exact (proj2 AZ)|exact AZ|exact AK|auto].
    Qed.
    (** What a bin leaves, from Spectra; [bad1 bad2 badt] is what a table lacks before the response. *)
    Variables (n : Z) (nb : nat) (sfx : string).
    Hypotheses (GA : kc_galaxy c = true) (NB : b (kc_hod c) "nbins"%string = Some (BInt n)) (BN : (nb < Z.to_nat n)%nat) (BE : bin_end c n nb sfx) (OA : occupation_agrees c b n nb S)
      (RB : kc_response c = true -> baryons_agree c b S nb).
    Definition off (t : A2) (r : A3) (d : A2) : Prop := forall j i, (j < s_nz S)%nat -> (i < s_nk S)%nat -> t j i = r nb j i + d j i.
    Definition leaves (s : string) (r : psr) (g d1 d2 dt : A2) : Prop :=
      holds_result b' s "p_k_1h" S (fun j i => pk_1h r nb j i + d1 j i * g j i) /\ holds_result b' s "p_k_2h" S (fun j i => pk_2h r nb j i + d2 j i * g j i) /\
      holds_result b' s "p_k" S (fun j i => pk_tot r nb j i + dt j i * g j i).
    Lemma spectrum_left z k mass x nl W s t t' r0 r d1 d2 dt : lk_read dw nd c b = Ok (z, k, mass, x, nl) -> lk_profile c b x = Ok W -> answered c x W nl t = Ok t' -> left_at z k x b' s t' ->
      respond S r0 = Ok r -> off (l_1h t) (pk_1h r0) d1 -> off (l_2h t) (pk_2h r0) d2 -> off (l_tot t) (pk_tot r0) dt -> exists g, response_factor S nb g /\ leaves s r g d1 d2 dt.
    Proof.
      intros ER EP A (Z & K & T1 & T2 & T3) R O1 O2 O3. destruct (read_alike _ _ _ _ _ _ HA HG _ _ _ _ _ ER) as (H & F & SM & HB & NL & AZ & AK & AM).
      assert (MT : kc_response c = true -> matters c = true).
      { intros RE. unfold answered in A. rewrite RE in A. unfold lk_profile in EP. unfold matters. rewrite RE. destruct (kc_matter c); [now destruct (kc_mm c)|]. injection EP as <-. discriminate A. }
      destruct (answer_factor x c S pl nb H HA P HB nl t r0 r W) with (t' := t') as (g & RF & RR & TT); try assumption.
      - intros RE. apply SM. auto.
      - intros RE V ->. eapply profile_read; eauto.
      - exists g. split; [exact RF|]. split; [|split]; (eapply result_of; [exact H|exact AZ|exact AK|exact Z|exact K|eassumption|]); intros j i J I; destruct (TT j i J I) as (X1 & X2 & X3); destruct (RR j i) as (Y1 & Y2 & Y3).
        + rewrite X1, Y1, (O1 j i J I). ring.
        + rewrite X2, Y2, (O2 j i J I). ring.
        + rewrite X3, Y3, (O3 j i J I). ring.
    Qed.
    Definition none : A2 := fun _ _ => 0.
    Lemma off_none t r : same_on S nb t r -> off t r none.
    Proof. intros Q j i J I. unfold none. rewrite Q by assumption. ring. Qed.
    Lemma leaves_none s r g : leaves s r g none none none -> holds_result b' s "p_k_1h" S (pk_1h r nb) /\ holds_result b' s "p_k_2h" S (pk_2h r nb) /\ holds_result b' s "p_k" S (pk_tot r nb).
    Proof.
      assert (G : forall nme f, holds_result b' s nme S (fun j i => f nb j i + none j i * g j i) -> holds_result b' s nme S (f nb)).
      { intros nme f (Z & K & t & T & L & V). split; [exact Z|]. split; [exact K|]. exists t. split; [exact T|]. split; [exact L|]. intros j J. destruct (V j J) as [LL VV]. split; [exact LL|]. intros i I. rewrite (VV i I). unfold none. ring. }
      intros (A & B & C). repeat split; first [apply (G "p_k_1h"%string (pk_1h r))|apply (G "p_k_2h"%string (pk_2h r))|apply (G "p_k"%string (pk_tot r))]; assumption.
    Qed.
    Ltac start := destruct (run_left b b' HH E) as (z & k & mass & x & nl & W & ER & EP & LM & LG); destruct (read_alike _ _ _ _ _ _ HA HG _ _ _ _ _ ER) as (H & F & SM & HB & NL & AZ & AK & AM);
      destruct (LG GA) as (n' & bm & NB' & FM & BS); rewrite NB in NB'; injection NB' as <-; destruct (BS nb BN) as (h & pe & RH & EF & DN);
      destruct (bin_alike_read c b S pl HA n nb z k mass x W h H F AZ AK AM RH OA) as (BA & IA & PX & PO); pose proof (bin_end_only _ _ _ _ BE) as SX.
    Ltac profile EP HA H F RBX := let V := fresh in intros V ->; eapply profile_read; [exact HA|exact H|exact F|exact RBX|exact EP].
    Lemma gg_values r : kc_gg c = true -> poisson_agrees c b S -> power_spectrum_gg S = Ok r ->
      (holds_result b' ("galaxy_power" ++ sfx) "p_k_1h" S (pk_1h r nb) /\ holds_result b' ("galaxy_power" ++ sfx) "p_k_2h" S (pk_2h r nb) /\ holds_result b' ("galaxy_power" ++ sfx) "p_k" S (pk_tot r nb)) /\
      exists bias, pk_bias r = Some bias /\ holds_result b' ("galaxy_linear_bias" ++ sfx) "bg_linear" S (bias nb).
    Proof.
      intros ON PA R. start. destruct DN as (D & _). destruct (D ON) as (t & A & L & (BZ & BK & BT)). rewrite <- SX in L, BZ, BK, BT.
      destruct (poisson_func (s_poisson S) (s_mass S)) as [po|e] eqn:EPO; [|exfalso; unfold power_spectrum_gg in R; rewrite P, EPO in R; cbn [bind] in R; discriminate].
      destruct (gg_alike x c S pl nb h H HA P HB BA po r EPO (PO ON PA po eq_refl) R) as (r0 & bias & RS & (S1 & S2 & S3) & RBI & SB).
      split.
      - destruct (spectrum_left _ _ _ _ _ _ _ _ _ r0 r none none none ER EP A L RS (off_none _ _ S1) (off_none _ _ S2) (off_none _ _ S3)) as (g & _ & LL). eapply leaves_none; exact LL.
      - exists bias. split; [exact RBI|]. eapply result_of; [exact H|exact AZ|exact AK|exact BZ|exact BK|exact BT|exact SB].
    Qed.
    (** The profile of gm and mI. *)
    Definition profile_agrees : Prop := baryons_agree c b S nb /\ stars_agree c b n nb S.
    Lemma gm_values r : kc_gm c = true -> profile_agrees -> power_spectrum_gm S = Ok r ->
      (holds_result b' ("matter_galaxy_power" ++ sfx) "p_k_1h" S (pk_1h r nb) /\ holds_result b' ("matter_galaxy_power" ++ sfx) "p_k_2h" S (pk_2h r nb) /\ holds_result b' ("matter_galaxy_power" ++ sfx) "p_k" S (pk_tot r nb)) /\
      exists bias, pk_bias r = Some bias /\ holds_result b' ("galaxy_matter_linear_bias" ++ sfx) "bgm_linear" S (bias nb).
    Proof.
      intros ON [BY ST] R. start. destruct DN as (_ & D & _). destruct (D ON) as (t & A & L & (BZ & BK & BT)). rewrite <- SX in L, BZ, BK, BT.
      assert (HX : profile_alike (bi_W h) (profile_xm S) S nb) by (apply PX; [profile EP HA H F BY|exact ST]).
      destruct (gm_alike x c S pl nb h H HA P HB BA r HX R) as (r0 & bias & RS & (S1 & S2 & S3) & RBI & SB).
      split.
      - destruct (spectrum_left _ _ _ _ _ _ _ _ _ r0 r none none none ER EP A L RS (off_none _ _ S1) (off_none _ _ S2) (off_none _ _ S3)) as (g & _ & LL). eapply leaves_none; exact LL.
      - exists bias. split; [exact RBI|]. eapply result_of; [exact H|exact AZ|exact AK|exact BZ|exact BK|exact BT|exact SB].
    Qed.
    Ltac eff pe H AZ FM EF HE := assert (HE : effective S pe) by (eapply effective_read; [exact HA|exact H|exact P|exact AZ|intros m; apply FM|intros m; apply FM; intros [_ [[_ X]|(_ & _ & X)]]; discriminate X|eassumption|exact EF]).
    Lemma align_on : (kc_gI c = true \/ kc_mI c = true \/ kc_II c = true) -> kc_align c = true.
    Proof. unfold kc_align. destruct (kc_gI c), (kc_mI c), (kc_II c); intuition; discriminate. Qed.
    Lemma gI_values r : kc_gI c = true -> alignment_agrees c b n nb S -> effective_agrees c b S -> power_spectrum_gi S = Ok r ->
      holds_result b' ("galaxy_intrinsic_power" ++ sfx) "p_k_1h" S (pk_1h r nb) /\ holds_result b' ("galaxy_intrinsic_power" ++ sfx) "p_k_2h" S (pk_2h r nb) /\ holds_result b' ("galaxy_intrinsic_power" ++ sfx) "p_k" S (pk_tot r nb).
    Proof.
      intros ON AA EA R. start. destruct DN as (_ & _ & _ & D & _). destruct (D ON) as (t & A & L). rewrite <- SX in L. eff pe H AZ FM EF HE. specialize (IA (align_on (or_introl ON)) AA).
      destruct (gI_alike x c S pl nb h H HA P HB BA IA pe HE r R) as (r0 & RS & (S1 & S2 & S3)).
      destruct (spectrum_left _ _ _ _ _ _ _ _ _ r0 r none none none ER EP A L RS (off_none _ _ S1) (off_none _ _ S2) (off_none _ _ S3)) as (g & _ & LL). eapply leaves_none; exact LL.
    Qed.
    Lemma leaves_parts s r g d : leaves s r g none d none ->
      holds_result b' s "p_k_1h" S (pk_1h r nb) /\ holds_result b' s "p_k_2h" S (fun j i => pk_2h r nb j i + d j i * g j i) /\ holds_result b' s "p_k" S (pk_tot r nb).
    Proof.
      assert (G : forall nme f, holds_result b' s nme S (fun j i => f nb j i + none j i * g j i) -> holds_result b' s nme S (f nb)).
      { intros nme f (Z & K & t & T & L & V). split; [exact Z|]. split; [exact K|]. exists t. split; [exact T|]. split; [exact L|]. intros j J. destruct (V j J) as [LL VV]. split; [exact LL|]. intros i I. rewrite (VV i I). unfold none. ring. }
      intros (A & B & C). split; [|split; [exact B|]]; first [apply (G "p_k_1h"%string (pk_1h r))|apply (G "p_k"%string (pk_tot r))]; assumption.
    Qed.
    Lemma mI_values r : kc_mI c = true -> profile_agrees -> alignment_agrees c b n nb S -> effective_agrees c b S -> power_spectrum_mi S = Ok r ->
      exists g d, response_factor S nb g /\ (s_mode S <> Bnl -> forall j i, (j < s_nz S)%nat -> (i < s_nk S)%nat -> d j i = 0) /\
        (s_mode S = Bnl -> forall B inl, beta_nl S = Ok B -> I_NL S (gal_align S) (matter_profile S) B = Ok inl -> forall j i, (j < s_nz S)%nat -> (i < s_nk S)%nat -> d j i = pl j i * inl nb j i) /\
        holds_result b' ("matter_intrinsic_power" ++ sfx) "p_k_1h" S (pk_1h r nb) /\ holds_result b' ("matter_intrinsic_power" ++ sfx) "p_k_2h" S (fun j i => pk_2h r nb j i + d j i * g j i) /\
        holds_result b' ("matter_intrinsic_power" ++ sfx) "p_k" S (pk_tot r nb).
    Proof.
      intros ON [BY ST] AA EA R. start. destruct DN as (_ & _ & _ & _ & D). destruct (D ON) as (t & A & L). rewrite <- SX in L. eff pe H AZ FM EF HE. specialize (IA (align_on (or_intror (or_introl ON))) AA).
      assert (HX : profile_alike (bi_W h) (profile_xm S) S nb) by (apply PX; [profile EP HA H F BY|exact ST]).
      destruct (mI_alike x c S pl nb h H HA P HB BA IA pe HE r HX R) as (r0 & RS & S1 & S3 & S2 & S2').
      destruct (spectrum_left _ _ _ _ _ _ _ _ _ r0 r none (fun j i => l_2h (lk_mI x c h pe) j i - pk_2h r0 nb j i) none ER EP A L RS (off_none _ _ S1)) as (g & RF & LL); [intros j i _ _; ring|exact (off_none _ _ S3)|].
      exists g. eexists. split; [exact RF|]. split; [|split; [|exact (leaves_parts _ _ _ _ LL)]]; cbn beta.
      - intros N j i J I. rewrite (S2 N j i J I). ring.
      - intros M B inl EB EI j i J I. rewrite (S2' B inl EB EI M j i J I). ring.
    Qed.
    Lemma II_values r : kc_II c = true -> alignment_agrees c b n nb S -> effective_agrees c b S -> power_spectrum_ii S = Ok r ->
      exists g d, response_factor S nb g /\ (s_mode S = PkModel.Fortuna -> forall j i, (j < s_nz S)%nat -> (i < s_nk S)%nat -> d j i = 0) /\
        (s_mode S = NoNl \/ s_mode S = Hmcode -> forall j i, (j < s_nz S)%nat -> (i < s_nk S)%nat -> d j i = pl j i * Is_align S nb j i * (Ic_align S nb j i - Is_align S nb j i) * t2i S i) /\
        (s_mode S = Bnl -> forall B iss ics, beta_nl S = Ok B -> I_NL S (sat_align S) (sat_align S) B = Ok iss -> I_NL S (cen_align S) (sat_align S) B = Ok ics -> forall j i, (j < s_nz S)%nat -> (i < s_nk S)%nat ->
           d j i = pl j i * (Is_align S nb j i * (Ic_align S nb j i - Is_align S nb j i) + (ics nb j i - iss nb j i))) /\
        holds_result b' ("intrinsic_power" ++ sfx) "p_k_1h" S (pk_1h r nb) /\ holds_result b' ("intrinsic_power" ++ sfx) "p_k_2h" S (fun j i => pk_2h r nb j i + d j i * g j i) /\
        holds_result b' ("intrinsic_power" ++ sfx) "p_k" S (pk_tot r nb).
    Proof.
      intros ON AA EA R. start. destruct DN as (_ & _ & D & _ & _). destruct (D ON) as (t & A & L). rewrite <- SX in L. eff pe H AZ FM EF HE. specialize (IA (align_on (or_intror (or_intror ON))) AA).
      destruct (II_alike x c S pl nb h H HA P HB BA IA pe HE r R) as (r0 & RS & S1 & S3 & S2 & S2' & S2'').
      destruct (spectrum_left _ _ _ _ _ _ _ _ _ r0 r none (fun j i => l_2h (lk_II x c h pe) j i - pk_2h r0 nb j i) none ER EP A L RS (off_none _ _ S1)) as (g & RF & LL); [intros j i _ _; ring|exact (off_none _ _ S3)|].
      exists g. eexists. split; [exact RF|]. split; [|split; [|split; [|exact (leaves_parts _ _ _ _ LL)]]]; cbn beta.
      - intros N j i J I. rewrite (S2 N j i J I). ring.
      - intros N j i J I. rewrite (S2' N j i J I). ring.
      - intros M B iss ics EB E1 E2 j i J I. rewrite (S2'' B iss ics EB E1 E2 M j i J I). ring.
    Qed.
  End Values.
End Run.
