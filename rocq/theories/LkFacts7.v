(** The options, the frame and the failures of the legacy power-spectrum module. *)
From Coq Require Import ZArith.
From Verif Require Import Base Spec Quad Interp IaModel HodModel PkModel PipeModel OptModel FftModel ChainModel MiniModel PredModel AupModel AupSpec AupFacts AupFacts3 AupFacts5 LiaModel LiaSpec LhModel LhSpec LhSpec2 LhFacts LhFacts5 LhFacts10 LrModel LkModel LkSpec LkSpec2 LkSpec3 LkFacts LkFacts2 LkFacts3 LkFacts4 LkFacts5 LkFacts6.
Open Scope R_scope.

Lemma flag_is missing wrong o n v : lk_flag missing wrong o n = Ok v <-> switch o n false v.
Proof. split; [|apply switch_gets]. unfold lk_flag, get_bool, switch. destruct (o n) as [[| | | |]|]; try discriminate; cbn; intros E; injection E as <-; auto. Qed.
Lemma trunc_is wrong o n d v : lk_or_none wrong o n d = Ok v <-> truncation o n d v.
Proof.
  unfold lk_or_none, truncation, number, gives. destruct (o n) as [[z|x|s0|s|l]|] eqn:E; split; intros A;
    try (destruct A as [[A ->]|(y & -> & [[A|(k & A & ->)]|[A ->]])]; congruence || discriminate A); try discriminate A.
  all: try (injection A as <-; right; eexists; split; [reflexivity|]; eauto 6; fail).
  all: try (destruct (String.eqb_spec s "None") as [->|N]; [injection A as <-; auto|discriminate A]).
  all: try (destruct A as [[A ->]|(y & -> & [[A|(k & A & ->)]|[A ->]])]; injection A as -> || discriminate A; reflexivity).
Qed.
Lemma string_is missing wrong o n v : get_string missing wrong o n None = Ok v <-> o n = Some (OStr v).
Proof. unfold get_string. destruct (o n) as [[| | | |]|]; cbn; split; congruence. Qed.
Lemma correction_is t m : correction t m <-> m = mead_of t.
Proof.
  unfold correction, mead_of. destruct (String.eqb_spec t "mead2020") as [->|A]; [intuition (congruence || discriminate)|]. destruct (String.eqb_spec t "mead2020_feedback") as [->|B]; [intuition (congruence || discriminate)|].
  destruct (String.eqb_spec t "fit_feedback") as [->|C]; intuition (congruence || discriminate).
Qed.
Lemma lk_setup_iff missing wrong o c : lk_setup missing wrong o = Ok c <-> spectra_options o c.
Proof.
  unfold lk_setup. split.
  - intros E. do 19 (let a := fresh "a" in let A := fresh "A" in apply bind_inv in E; destruct E as (a & A & E)). injection E as <-.
    repeat match goal with A : lk_flag _ _ _ _ = Ok _ |- _ => apply flag_is in A | A : lk_or_none _ _ _ _ = Ok _ |- _ => apply trunc_is in A | A : get_string _ _ _ _ None = Ok _ |- _ => apply string_is in A | A : get_string _ _ _ _ (Some _) = Ok _ |- _ => apply text_string in A end.
    constructor; cbn; try assumption; eexists; (split; [eassumption|]); [apply suffix_part|now apply correction_is].
  - intros [so1 so2 so3 so4 so5 so6 so7 so8 so9 so10 so11 so12 so13 so14 so15 so16 so17 (t & so18 & so19) (u & so20 & so21)].
    repeat match goal with A : switch _ _ _ _ |- _ => apply (flag_is missing wrong) in A; rewrite A; clear A; cbn [bind] | A : truncation _ _ _ _ |- _ => apply (trunc_is wrong) in A end.
    apply (text_string missing wrong) in so12, so18, so20. apply (string_is missing wrong) in so17. apply part_only in so19. apply correction_is in so21.
    cbn [bind]. rewrite so12, so13, so14, so15, so16, so17, so18, so20. cbn [bind]. rewrite <- so19, <- so21. now destruct c.
Qed.

Section Run.
  Variables (over : bool) (dw : dblock -> list R -> A2 -> res A2) (nd : arrays) (c : kconfig).
  Notation run := (lk_execute over dw nd c).
  Lemma lk_frame b b' r s m n : run b = (b', r) -> (kc_galaxy c = true -> hod_apart c) -> (kc_galaxy c = true -> b (kc_hod c) "nbins"%string = Some (BInt n)) ->
    ~ matter_section c s -> ~ (kc_galaxy c = true /\ bin_section c n s) -> b' s m = b s m.
  Proof.
    intros E HH NB M B. unfold lk_execute in E. destruct (lk_read dw nd c b) as [[[[[z k] mass] x] nl]|e] eqn:ER; [|now injection E as <- _]. destruct (lk_profile c b x) as [W|e] eqn:EP; [|now injection E as <- _].
    unfold then_ in E. destruct (do_puts over (mm_puts c z k x W) b) as [bm rm] eqn:D.
    assert (FM : forall s m, ~ matter_section c s -> bm s m = b s m) by (intros s0 m0 N; eapply puts_apart; [exact D|intros p I <-; apply N; eapply mm_sec; eauto]).
    cbn [fst snd] in E. destruct rm as [u|e]; [|injection E as <- _; now apply FM]. rewrite <- (FM s m M).
    destruct (kc_galaxy c) eqn:G; [|now injection E as <- _]. unfold int_at in E. rewrite FM in E.
    2:{ destruct (HH eq_refl) as (A & B' & _). intros [_ [[_ X]|(_ & _ & X)]]; congruence. }
    rewrite (NB eq_refl) in E. eapply bins_apart; [exact E|]. intros j q J Q S. apply B. split; [reflexivity|]. exists q, j. eexists. split; [exact Q|]. split; [apply in_seq in J; lia|]. split; [apply bin_end_is|exact S].
  Qed.
  (** A run that finished read the bins. *)
  Lemma first_bin b b' n : kc_galaxy c = true -> hod_apart c -> b (kc_hod c) "nbins"%string = Some (BInt n) -> (0 < n)%Z -> run b = (b', Ok tt) -> exists z k mass x nl W h pe bm, lk_read dw nd c b = Ok (z, k, mass, x, nl) /\ lk_profile c b x = Ok W /\
    bin_read c n 0 z k mass x W b = Ok h /\ bin_done c z k x W nl n 0 bm b' h pe.
  Proof.
    intros G HH NB N E. destruct (run_left over dw nd c b b' (fun _ => HH) E) as (z & k & mass & x & nl & W & ER & EP & _ & LG). destruct (LG G) as (n' & bm & NB' & _ & BS). rewrite NB in NB'. injection NB' as <-.
    destruct (BS 0%nat ltac:(lia)) as (h & pe & R & _ & D). exists z, k, mass, x, nl, W, h, pe, bm. auto.
  Qed.
  Lemma needs_matter b b' n : kc_matter c = false -> kc_galaxy c = true -> kc_pm c = false -> kc_mead c <> Some FitFeedback -> hod_apart c -> b (kc_hod c) "nbins"%string = Some (BInt n) -> (0 < n)%Z -> run b <> (b', Ok tt).
  Proof.
    intros M G PM FB HH NB N E. destruct (first_bin _ _ _ G HH NB N E) as (z & k & mass & x & nl & W & h & pe & bm & _ & EP & R & _). unfold lk_profile in EP. rewrite M in EP. injection EP as <-.
    unfold bin_read in R. apply bind_inv in R. destruct R as ([[[[[[[Nc Ns] nc] ns] fc] fs] avg] star] & _ & R). rewrite PM in R. destruct (kc_mead c) as [[| |]|]; try discriminate R. now apply FB.
  Qed.
  Lemma response_needs_matter b b' n : kc_matter c = false -> kc_galaxy c = true -> kc_response c = true -> hod_apart c -> b (kc_hod c) "nbins"%string = Some (BInt n) -> (0 < n)%Z -> run b <> (b', Ok tt).
  Proof.
    intros M G RE HH NB N E. destruct (first_bin _ _ _ G HH NB N E) as (z & k & mass & x & nl & W & h & pe & bm & _ & EP & _ & D). unfold lk_profile in EP. rewrite M in EP. injection EP as <-.
    destruct D as (D1 & D2 & D3 & D4 & D5). unfold answered in *. rewrite RE in *. unfold kc_galaxy, kc_align in G.
    destruct (kc_gg c); [destruct (D1 eq_refl) as (t & X & _); discriminate X|]. destruct (kc_gm c); [destruct (D2 eq_refl) as (t & X & _); discriminate X|]. destruct (kc_II c); [destruct (D3 eq_refl) as (t & X & _); discriminate X|].
    destruct (kc_gI c); [destruct (D4 eq_refl) as (t & X & _); discriminate X|]. destruct (kc_mI c); [destruct (D5 eq_refl) as (t & X & _); discriminate X|]. discriminate G.
  Qed.
  Lemma poisson_needs b b' n : kc_gg c = true -> hod_apart c -> b (kc_hod c) "nbins"%string = Some (BInt n) -> (0 < n)%Z -> run b = (b', Ok tt) ->
    (kc_poisson c = "scalar"%string -> exists v, reads b "pk_parameters" "poisson" v) /\
    (kc_poisson c = "power_law"%string -> (exists v, reads b "pk_parameters" "poisson" v) /\ (exists v, reads b "pk_parameters" "M_0" v) /\ exists v, reads b "pk_parameters" "slope" v).
  Proof.
    intros GG HH NB N E. assert (G : kc_galaxy c = true) by (unfold kc_galaxy; now rewrite GG). destruct (first_bin _ _ _ G HH NB N E) as (z & k & mass & x & nl & W & h & pe & bm & _ & _ & R & _).
    unfold bin_read in R. apply bind_inv in R. destruct R as ([[[[[[[Nc Ns] nc] ns] fc] fs] avg] star] & _ & R). apply bind_inv in R. destruct R as (W1 & _ & R). apply bind_inv in R. destruct R as (a & _ & R). apply bind_inv in R. destruct R as (po & P & _).
    rewrite GG in P. unfold lk_poisson in P. apply bind_inv in P. destruct P as (p & Ep & P). apply bind_inv in P. destruct P as (m0 & Em & P). apply bind_inv in P. destruct P as (sl & Es & P).
    assert (RB : forall nme v, block_or_none b "pk_parameters" nme = Ok (Some v) -> reads b "pk_parameters" nme v).
    { intros nme v X. unfold block_or_none in X. unfold reads. destruct (b "pk_parameters"%string nme) as [[q|y|t|y|y]|]; try discriminate X; [right; injection X as <-; eauto|left; congruence|]. destruct (String.eqb t "None"); discriminate X. }
    split; intros PT; rewrite PT in P; cbn in P.
    - destruct p as [v|]; [|discriminate P]. exists v. now apply RB.
    - destruct m0 as [m0|], sl as [sl|]; try discriminate P. destruct p as [v|]; [|discriminate P]. split; [exists v|split; [exists m0|exists sl]]; now apply RB.
  Qed.
  Lemma bnl_needs b b' : kc_bnl c = true -> run b = (b', Ok tt) -> exists B, nd_beta nd = BetaArray B.
  Proof.
    intros BN E. unfold lk_execute in E. destruct (lk_read dw nd c b) as [[[[[z k] mass] x] nl]|e] eqn:ER; [|discriminate]. clear E. unfold lk_read in ER. do 16 (apply bind_inv in ER; destruct ER as (? & _ & ER)). apply bind_inv in ER. destruct ER as (B & EB & _).
    rewrite BN in EB. destruct (nd_beta nd) as [| |B']; try discriminate EB. eauto.
  Qed.
End Run.

(** put_grid over what is there: the matter tables are written as soon as everything else could be read. *)
Lemma matter_kept dw nd c b b' r S pl nb ps : matters c = true -> asks_alike c S -> halos_agree dw nd c b S pl -> pk_lin S = Ok pl -> (kc_galaxy c = true -> hod_apart c) -> baryons_agree c b S nb ->
  power_spectrum_mm_raw S = Ok ps -> lk_execute true dw nd c b = (b', r) ->
  (r <> Ok tt /\ forall s m, b' s m = b s m) \/
  (holds_result b' (msec c) "p_k_1h" S (pk_1h ps nb) /\ holds_result b' (msec c) "p_k_2h" S (pk_2h ps nb) /\ holds_result b' (msec c) "p_k" S (pk_tot ps nb)).
Proof.
  intros M HA HG P HH BA R E. unfold lk_execute in E. destruct (lk_read dw nd c b) as [[[[[z k] mass] x] nl]|e] eqn:ER; [|injection E as <- <-; left; split; [discriminate|reflexivity]].
  destruct (lk_profile c b x) as [W|e] eqn:EP; [|injection E as <- <-; left; split; [discriminate|reflexivity]]. right.
  destruct (read_alike _ _ _ _ _ _ HA HG _ _ _ _ _ ER) as (H & F & SM & HB & NL & AZ & AK & AM).
  assert (KM : kc_matter c = true) by (unfold matters in M; now destruct (kc_matter c)).
  assert (WV : exists V, W = Some V).
  { unfold lk_profile in EP. rewrite KM in EP. destruct (kc_mead c) as [[| |]|]; repeat (apply bind_inv in EP; destruct EP as (? & _ & EP)); injection EP as <-; eauto. }
  destruct WV as (V & ->). pose proof (profile_read _ _ _ _ HA _ nb V H F BA EP) as HV. destruct (mm_alike x c S pl nb H HA P HB V ps (SM M) HV R) as (E1 & E2 & E3).
  assert (PO : forall l d, (forall p, In p l -> exists s nx x0 ny y n t, p = Grid s nx x0 ny y n t) -> exists d', do_puts true l d = (d', Ok tt)).
  { induction l as [|p l IH]; intros d G; [now eexists|]. cbn [do_puts]. destruct (G p (or_introl eq_refl)) as (s & nx & x0 & ny & y & n & t & ->). unfold then_ at 1. cbn [do_put]. destruct (d s n); cbn [fst snd]; apply IH; intros q Q; apply G; now right. }
  destruct (PO (mm_puts c z k x (Some V)) b) as (bm & D). { unfold mm_puts. rewrite M. intros p I. cbn in I. repeat (destruct I as [<-|I]; [repeat eexists|]). contradiction. }
  rewrite D in E. unfold then_ in E. cbn [fst snd] in E.
  assert (FB : forall m, b' (msec c) m = bm (msec c) m).
  { intros m. destruct (kc_galaxy c) eqn:G; [|now injection E as <- _]. destruct (int_at bm (kc_hod c) "nbins") as [n|e]; [|injection E as <- _; reflexivity].
    eapply bins_apart; [exact E|]. intros j q _ Q X. apply requested_base in Q. symmetry in X. revert X. unfold msec. destruct (kc_response c); intros X; eapply bases_matter in X; assumption. }
  unfold mm_puts in D. rewrite M in D. apply (three_left true dw z k x (fun _ _ => 0) 0%nat) in D. destruct D as (Z & K & T1 & T2 & T3). change (if kc_response c then "matter_power_hm" else "matter_power_nl")%string with (msec c) in *. rewrite <- FB in Z, K, T1, T2, T3.
  split; [|split]; eapply result_of; eauto.
Qed.
