(** Proofs about the keyword arguments: histories. *)
From Coq Require Import ZArith FunctionalExtensionality.
From Verif Require Import Base Spec Interp HodModel PkModel AddModel AddSpec PipeModel PipeSpec PipeFacts PipeFacts2 PipeFacts3 PipeFacts4 PipeFacts5
  OptModel OptSpec BaseFacts KwModel KwSpec.
Open Scope string_scope.

(** ** execute seen from the object: any ext *)
Section Rel.
  Variable X : ext.
  Definition concl {B} (r1 r2 : pst X * list write * res B) : Prop :=
    snd r1 = snd r2 /\ snd (fst r1) = snd (fst r2) /\ (forall a, snd r1 = Ok a -> p_power X (fst (fst r1)) = p_power X (fst (fst r2))).
  Notation shaped := (shaped X).
  Lemma stage {A B} (m : M X A) (P : A -> M X B) s1 s2 : snd s1 = snd s2 ->
    (snd (m s1) = snd (m s2)) -> snd (fst (m s1)) = snd s1 -> snd (fst (m s2)) = snd s2 ->
    p_power X (fst (fst (m s1))) = p_power X (fst s1) -> p_power X (fst (fst (m s2))) = p_power X (fst s2) ->
    (forall a t1 t2, snd (m s1) = Ok a -> snd t1 = snd t2 -> p_power X (fst t1) = p_power X (fst s1) -> p_power X (fst t2) = p_power X (fst s2) ->
       concl (P a t1) (P a t2)) ->
    concl (bindM X m P s1) (bindM X m P s2).
  Proof.
    intros L E L1 L2 P1 P2 H. unfold bindM. destruct (m s1) as [t1 r1], (m s2) as [t2 r2]. cbn [fst snd] in *. subst r2.
    destruct r1 as [a|e]; [|split; [reflexivity|]; split; [cbn; congruence|intros a' Q; discriminate Q]].
    apply H; [reflexivity|congruence|exact P1|exact P2].
  Qed.
  Lemma forget' q {B} (f : unit -> M X B) s1 s2 : (forall a, sim X (f a)) -> snd s1 = snd s2 ->
    snd (x_update X (p_power X (fst s1)) q) = snd (x_update X (p_power X (fst s2)) q) ->
    (snd (x_update X (p_power X (fst s1)) q) = Ok tt -> fst (x_update X (p_power X (fst s1)) q) = fst (x_update X (p_power X (fst s2)) q)) ->
    concl (bindM X (update_power X q) f s1) (bindM X (update_power X q) f s2).
  Proof.
    intros Hf L E F. unfold update_power. unfold bindM, get, put, lift. cbn [fst snd].
    destruct (x_update X (p_power X (fst s1)) q) as [o1 r1]. destruct (x_update X (p_power X (fst s2)) q) as [o2 r2]. cbn [fst snd] in *. subst r2.
    destruct r1 as [[]|e]; [|split; [reflexivity|]; split; [exact L|intros a Q; discriminate Q]].
    rewrite (F eq_refl).
    match goal with |- concl (f tt ?a) (f tt ?b) => assert (S : same X a b) by (split; [reflexivity|exact L]) end.
    destruct (Hf tt _ _ S) as [[S1 S2] S3]. split; [exact S3|]. split; [exact S2|]. intros a _. exact S1.
  Qed.
  Lemma pure_stage {A B} (m : M X A) (r : res A) (P : A -> M X B) s1 s2 : (forall s, m s = (s, r)) -> snd s1 = snd s2 ->
    (forall a, r = Ok a -> concl (P a s1) (P a s2)) -> concl (bindM X m P s1) (bindM X m P s2).
  Proof.
    intros Hm L H. unfold bindM. rewrite !Hm. destruct r as [a|e]; [apply H; reflexivity|].
    split; [reflexivity|]. split; [exact L|]. intros a Q. discriminate Q.
  Qed.
  Lemma pure_when {A} (c : bool) (m : M X A) r : (forall s, m s = (s, r)) ->
    forall s, when X c m s = (s, if c then bind r (fun a => Ok (Some a)) else Ok None).
  Proof. intros Hm s. unfold when. destruct c; [|reflexivity]. unfold bindM. rewrite Hm. destruct r; reflexivity. Qed.
  Lemma pure_bind {A B} (m : M X A) (f : A -> M X B) r g : (forall s, m s = (s, r)) -> (forall a s, f a s = (s, g a)) ->
    forall s, bindM X m f s = (s, bind r g).
  Proof. intros Hm Hf s. unfold bindM. rewrite Hm. destruct r; [apply Hf|reflexivity]. Qed.
  Theorem history_free' c b st1 st2 lg :
    (mode_is c "bnl" = true -> snd (bnl_step X c b (st1, lg)) = snd (bnl_step X c b (st2, lg))) ->
    (forall base beta nl hod al, shaped c b base beta nl hod al ->
       snd (x_update X (p_power X st1) (x_full X base beta nl hod al)) = snd (x_update X (p_power X st2) (x_full X base beta nl hod al)) /\
       (snd (x_update X (p_power X st1) (x_full X base beta nl hod al)) = Ok tt ->
        fst (x_update X (p_power X st1) (x_full X base beta nl hod al)) = fst (x_update X (p_power X st2) (x_full X base beta nl hod al)))) ->
    concl (execute X c b (st1, lg)) (execute X c b (st2, lg)).
  Proof.
    intros NB E. unfold execute.
    apply (pure_stage _ (x_read_base X b)); [reflexivity|reflexivity|]. intros base Ebase.
    apply stage; [reflexivity| | | | | |].
    { unfold when. destruct (mode_is c "bnl"); [|reflexivity]. unfold bindM. specialize (NB eq_refl).
      destruct (bnl_step X c b (st1, lg)) as [s1 [t|]], (bnl_step X c b (st2, lg)) as [s2 [t'|]]; cbn in NB; try discriminate NB;
        injection NB as ->; reflexivity. }
    { unfold when. destruct (mode_is c "bnl"); [|reflexivity]. unfold bindM. pose proof (bnl_quiet X c b (st1, lg)) as [Q _].
      destruct (bnl_step X c b (st1, lg)) as [s1 [t|]]; exact Q. }
    { unfold when. destruct (mode_is c "bnl"); [|reflexivity]. unfold bindM. pose proof (bnl_quiet X c b (st2, lg)) as [Q _].
      destruct (bnl_step X c b (st2, lg)) as [s1 [t|]]; exact Q. }
    { unfold when. destruct (mode_is c "bnl"); [|reflexivity]. unfold bindM. pose proof (bnl_quiet X c b (st1, lg)) as [_ Q].
      destruct (bnl_step X c b (st1, lg)) as [s1 [t|]]; exact Q. }
    { unfold when. destruct (mode_is c "bnl"); [|reflexivity]. unfold bindM. pose proof (bnl_quiet X c b (st2, lg)) as [_ Q].
      destruct (bnl_step X c b (st2, lg)) as [s1 [t|]]; exact Q. }
    intros beta t1 t2 Ebeta L P1 P2. cbn [fst snd] in P1, P2.
    assert (Hbeta : if mode_is c "bnl" then exists t, beta = Some t else beta = None).
    { unfold when in Ebeta. destruct (mode_is c "bnl"); [|injection Ebeta as <-; reflexivity]. unfold bindM in Ebeta.
      destruct (bnl_step X c b (st1, lg)) as [s1 [t|]]; [|discriminate Ebeta]. injection Ebeta as <-. eauto. }
    eapply pure_stage; [apply pure_when; reflexivity|exact L|]. intros nl Enl.
    eapply pure_stage; [apply pure_when; apply pure_bind; [reflexivity|intros pp; apply pure_bind; reflexivity]|exact L|]. intros hod Ehod.
    eapply pure_stage; [apply pure_when; reflexivity|exact L|]. intros al Eal.
    eapply pure_stage; [apply (pure_when _ _ (match al with Some d => align_params_2 b (g_pop2 c) (g_central c) (g_satellite c) d | None => Ok [] end)); intros s; destruct al; reflexivity|exact L|]. intros al2 _.
    assert (Sh : shaped c b base beta nl hod al).
    { split; [exact Ebase|]. split; [exact Hbeta|]. split; [|split].
      - destruct (g_response c || mode_is c "fortuna")%bool; [|injection Enl as <-; reflexivity].
        destruct (x_read_nl X b) as [n|]; [|discriminate Enl]. injection Enl as <-. eauto.
      - destruct (galaxy c || alignment c)%bool; [|injection Ehod as <-; reflexivity].
        destruct (poisson_params (x_missing X) b (g_poisson c)) as [pp|]; [|discriminate Ehod]. cbn [bind] in Ehod.
        destruct (hod_params b (g_hod_values c) (g_hod_model c) (g_nbins c)) as [hp|]; [|discriminate Ehod]. injection Ehod as <-. eauto.
      - destruct (alignment c); [|injection Eal as <-; reflexivity].
        destruct (align_params b (g_pop1 c) (g_central c) (g_satellite c)) as [d|]; [|discriminate Eal]. injection Eal as <-. eauto. }
    cbv zeta. destruct (E _ _ _ _ _ Sh) as [E1 E2]. rewrite <- P1, <- P2 in E1, E2.
    apply forget'; [|exact L|exact E1|exact E2].
    intro. repeat first
      [ apply sim_ret | apply sim_lift | apply sim_log | apply sim_power | apply sim_update
      | apply sim_hod | apply sim_matter | apply sim_obs | apply sim_ask | apply sim_bins | apply sim_when | apply sim_when_ | apply sim_bind; [|intro]
      | match goal with |- sim _ (match ?x with _ => _ end) => destruct x end | progress cbv zeta ].
  Qed.

  (** What execute does to the object: it is updated with the keywords, and with the alignment
      sample when alignments are asked for; [rel] relates an object to what updates make of it. *)
  Section Frame.
    Variable rel : obj (xa X) -> obj (xa X) -> Prop.
    Hypothesis rel_refl : forall o, rel o o.
    Hypothesis rel_trans : forall a b c, rel a b -> rel b c -> rel a c.
    Definition fr {A} (m : M X A) : Prop := forall s, rel (p_power X (fst s)) (p_power X (fst (fst (m s)))).
    Lemma fr_bind {A B} (m : M X A) (f : A -> M X B) : fr m -> (forall a, fr (f a)) -> fr (bindM X m f).
    Proof.
      intros Hm Hf s. unfold bindM. specialize (Hm s). destruct (m s) as [t [a|e]]; cbn [fst snd] in Hm; [|exact Hm].
      exact (rel_trans _ _ _ Hm (Hf a t)).
    Qed.
    Lemma fr_pure {A B} (m : M X A) r (f : A -> M X B) : (forall s, m s = (s, r)) -> (forall a, r = Ok a -> fr (f a)) -> fr (bindM X m f).
    Proof. intros Hm Hf s. unfold bindM. rewrite Hm. destruct r as [a|e]; [apply Hf; reflexivity|apply rel_refl]. Qed.
    Lemma fr_ret {A} (a : A) : fr (ret X a). Proof. intro s. apply rel_refl. Qed.
    Lemma fr_lift {A} (r : res A) : fr (lift X r). Proof. intro s. apply rel_refl. Qed.
    Lemma fr_log w : fr (log X w). Proof. intro s. apply rel_refl. Qed.
    Lemma fr_get : fr (get X). Proof. intro s. apply rel_refl. Qed.
    Lemma fr_power : fr (power X). Proof. apply fr_bind; [apply fr_get|intro; apply fr_ret]. Qed.
    Lemma fr_update q : (forall o, rel o (fst (x_update X o q))) -> fr (update_power X q).
    Proof. intros H s. unfold update_power, bindM, get, put, lift. specialize (H (p_power X (fst s))). destruct (x_update X (p_power X (fst s)) q). exact H. Qed.
    Lemma fr_when {A} c (m : M X A) : (c = true -> fr m) -> fr (when X c m).
    Proof. intro H. unfold when. destruct c; [apply fr_bind; [apply H; reflexivity|intro; apply fr_ret]|apply fr_ret]. Qed.
    Lemma fr_when_ c (m : M X unit) : (c = true -> fr m) -> fr (when_ X c m).
    Proof. intro H. unfold when_. destruct c; [apply H; reflexivity|apply fr_ret]. Qed.
    Lemma fr_hod sec : fr (save_hod X sec).
    Proof. apply fr_bind; [apply fr_power|]. intro. apply fr_bind; [apply fr_lift|]. intro. apply fr_bind; [apply fr_log|]. intro. apply fr_ret. Qed.
    Lemma fr_matter : fr (save_matter X).
    Proof. apply fr_bind; [apply fr_power|]. intro. apply fr_bind; [apply fr_lift|]. intro. apply fr_log. Qed.
    Lemma fr_obs d sec n : fr (save_obs X d sec n).
    Proof.
      apply fr_bind; [apply fr_log|]. intro. generalize (seq 0 n). intros nbs. induction nbs as [|nb nbs IH]; cbn [obs_loop]; [apply fr_ret|].
      apply fr_bind; [apply fr_lift|]. intro. apply fr_bind; [apply fr_log|]. intro. exact IH.
    Qed.
    Lemma fr_ask u mode : fr (ask X u mode).
    Proof. unfold ask. destruct (results u [mode] ["1h"; "2h"; "tot"]). apply fr_lift. Qed.
    Lemma fr_bins want mode base extra bins u : fr (do_bins X want mode base extra bins u).
    Proof.
      unfold do_bins. destruct want; [|apply fr_ret]. apply fr_bind; [apply fr_ask|]. intro. apply fr_bind; [apply fr_log|]. intro. apply fr_ret.
    Qed.
    Lemma frame c b : (forall base beta nl hod al, shaped c b base beta nl hod al -> forall o, rel o (fst (x_update X o (x_full X base beta nl hod al)))) ->
      (alignment c = true -> forall o, rel o (fst (x_update X o (x_hod X (g_ia_1 c))))) -> fr (execute X c b).
    Proof.
      intros Hk Ha. unfold execute.
      eapply fr_pure; [reflexivity|]. intros base Ebase.
      intros s. unfold bindM at 1.
      assert (Q : p_power X (fst (fst (when X (mode_is c "bnl") (bnl_step X c b) s))) = p_power X (fst s)).
      { unfold when. destruct (mode_is c "bnl"); [|reflexivity]. unfold bindM. pose proof (bnl_quiet X c b s) as [_ Q].
        destruct (bnl_step X c b s) as [s1 [t|]]; exact Q. }
      assert (Hbeta : forall beta, snd (when X (mode_is c "bnl") (bnl_step X c b) s) = Ok beta ->
        if mode_is c "bnl" then exists t, beta = Some t else beta = None).
      { intros beta Eb. unfold when in Eb. destruct (mode_is c "bnl"); [|injection Eb as <-; reflexivity]. unfold bindM in Eb.
        destruct (bnl_step X c b s) as [s1 [t|]]; [|discriminate Eb]. injection Eb as <-. eauto. }
      destruct (when X (mode_is c "bnl") (bnl_step X c b) s) as [t [beta|e]]; cbn [fst snd] in *; [|rewrite Q; apply rel_refl].
      rewrite <- Q. specialize (Hbeta beta eq_refl).
      match goal with |- rel _ (p_power X (fst (fst (?m t)))) => change (rel (p_power X (fst t)) (p_power X (fst (fst (m t))))); assert (F : fr m); [|exact (F t)] end.
      clear s t Q.
      eapply fr_pure; [apply pure_when; reflexivity|]. intros nl Enl.
      eapply fr_pure; [apply pure_when; apply pure_bind; [reflexivity|intros pp; apply pure_bind; reflexivity]|]. intros hod Ehod.
      eapply fr_pure; [apply pure_when; reflexivity|]. intros al Eal.
      eapply fr_pure; [apply (pure_when _ _ (match al with Some d => align_params_2 b (g_pop2 c) (g_central c) (g_satellite c) d | None => Ok [] end)); intros s; destruct al; reflexivity|]. intros al2 _.
      assert (Sh : shaped c b base beta nl hod al).
      { split; [exact Ebase|]. split; [exact Hbeta|]. split; [|split].
        - destruct (g_response c || mode_is c "fortuna")%bool; [|injection Enl as <-; reflexivity].
          destruct (x_read_nl X b) as [n|]; [|discriminate Enl]. injection Enl as <-. eauto.
        - destruct (galaxy c || alignment c)%bool; [|injection Ehod as <-; reflexivity].
          destruct (poisson_params (x_missing X) b (g_poisson c)) as [pp|]; [|discriminate Ehod]. cbn [bind] in Ehod.
          destruct (hod_params b (g_hod_values c) (g_hod_model c) (g_nbins c)) as [hp|]; [|discriminate Ehod]. injection Ehod as <-. eauto.
        - destruct (alignment c); [|injection Eal as <-; reflexivity].
          destruct (align_params b (g_pop1 c) (g_central c) (g_satellite c)) as [d|]; [|discriminate Eal]. injection Eal as <-. eauto. }
      cbv zeta. apply fr_bind; [apply fr_update; intros o; apply Hk; exact Sh|].
      intro. repeat first
        [ apply fr_ret | apply fr_lift | apply fr_log | apply fr_power | apply fr_hod | apply fr_matter | apply fr_obs | apply fr_ask | apply fr_bins
        | apply fr_update; apply Ha; assumption | apply fr_when; intro | apply fr_when_; intro | apply fr_bind; [|intro]
        | match goal with |- fr (match ?x with _ => _ end) => destruct x end | progress cbv zeta ].
    Qed.
    Lemma bind_ok {A B} (m : M X A) (f : A -> M X B) s r : snd (bindM X m f s) = Ok r ->
      exists a, snd (m s) = Ok a /\ bindM X m f s = f a (fst (m s)).
    Proof. unfold bindM. destruct (m s) as [t [a|e]]; intros H; [|discriminate H]. exists a. split; reflexivity. Qed.
    Lemma bind_ok_pure {A B} (m : M X A) r (f : A -> M X B) s v : snd (bindM X m f s) = Ok v -> (forall s, m s = (s, r)) ->
      exists a, r = Ok a /\ bindM X m f s = f a s.
    Proof. intros H Hm. apply bind_ok in H as (a & E & ->). exists a. rewrite Hm in *. split; [exact E|reflexivity]. Qed.
    (** The object that a successful call leaves is what the keywords made of the one it found,
        up to what later updates do. *)
    Lemma settled c b s : (alignment c = true -> forall o, rel o (fst (x_update X o (x_hod X (g_ia_1 c))))) ->
      snd (execute X c b s) = Ok tt -> exists base beta nl hod al, shaped c b base beta nl hod al /\
        snd (when X (mode_is c "bnl") (bnl_step X c b) s) = Ok beta /\
        snd (x_update X (p_power X (fst s)) (x_full X base beta nl hod al)) = Ok tt /\
        rel (fst (x_update X (p_power X (fst s)) (x_full X base beta nl hod al))) (p_power X (fst (fst (execute X c b s)))).
    Proof.
      intros Ha H. unfold execute in *.
      destruct (bind_ok_pure _ (x_read_base X b) _ _ _ H (fun _ => eq_refl)) as (base & Ebase & Q). rewrite Q in H |- *. clear Q.
      destruct (bind_ok _ _ _ _ H) as (beta & Eb & Q). rewrite Q in H |- *. clear Q.
      assert (Qp : p_power X (fst (fst (when X (mode_is c "bnl") (bnl_step X c b) s))) = p_power X (fst s)).
      { unfold when. destruct (mode_is c "bnl"); [|reflexivity]. unfold bindM. pose proof (bnl_quiet X c b s) as [_ Q].
        destruct (bnl_step X c b s) as [s1 [t|]]; exact Q. }
      assert (Hbeta : if mode_is c "bnl" then exists t, beta = Some t else beta = None).
      { clear H Qp. revert Eb. unfold when. destruct (mode_is c "bnl"); [|intros Eb; injection Eb as <-; reflexivity]. unfold bindM.
        destruct (bnl_step X c b s) as [s1 [t|]]; intros Eb; [|discriminate Eb]. injection Eb as <-. eauto. }
      set (t := fst (when X (mode_is c "bnl") (bnl_step X c b) s)) in *. rewrite <- Qp. clearbody t.
      destruct (bind_ok_pure _ _ _ _ _ H (pure_when _ _ _ (fun _ => eq_refl))) as (nl & Enl & Q). rewrite Q in H |- *. clear Q.
      assert (P1 : forall s', when X (galaxy c || alignment c)
             (bindM X (lift X (poisson_params (x_missing X) b (g_poisson c))) (fun pp =>
              bindM X (lift X (hod_params b (g_hod_values c) (g_hod_model c) (g_nbins c))) (fun hp =>
              ret X (pp, hp, g_settings c)))) s' = (s', if (galaxy c || alignment c)%bool
             then bind (bind (poisson_params (x_missing X) b (g_poisson c)) (fun pp =>
               bind (hod_params b (g_hod_values c) (g_hod_model c) (g_nbins c)) (fun hp => Ok (pp, hp, g_settings c)))) (fun a => Ok (Some a)) else Ok None)).
      { apply pure_when. apply pure_bind; [reflexivity|]. intros pp. apply pure_bind; reflexivity. }
      destruct (bind_ok_pure _ _ _ _ _ H P1) as (hod & Ehod & Q). rewrite Q in H |- *. clear Q P1.
      destruct (bind_ok_pure _ _ _ _ _ H (pure_when _ _ _ (fun _ => eq_refl))) as (al & Eal & Q). rewrite Q in H |- *. clear Q.
      assert (P2 : forall s', when X (g_split c) (match al with Some d => lift X (align_params_2 b (g_pop2 c) (g_central c) (g_satellite c) d)
          | None => ret X [] end) s' = (s', if g_split c then bind (match al with Some d => align_params_2 b (g_pop2 c) (g_central c) (g_satellite c) d
          | None => Ok [] end) (fun a => Ok (Some a)) else Ok None)) by (intros s'; apply pure_when; destruct al; reflexivity).
      destruct (bind_ok_pure _ _ _ _ _ H P2) as (al2 & _ & Q). rewrite Q in H |- *. clear Q P2.
      exists base, beta, nl, hod, al. split.
      { split; [exact Ebase|]. split; [exact Hbeta|]. split; [|split].
        - destruct (g_response c || mode_is c "fortuna")%bool; [|injection Enl as <-; reflexivity].
          destruct (x_read_nl X b) as [n|]; [|discriminate Enl]. injection Enl as <-. eauto.
        - destruct (galaxy c || alignment c)%bool; [|injection Ehod as <-; reflexivity].
          destruct (poisson_params (x_missing X) b (g_poisson c)) as [pp|]; [|discriminate Ehod]. cbn [bind] in Ehod.
          destruct (hod_params b (g_hod_values c) (g_hod_model c) (g_nbins c)) as [hp|]; [|discriminate Ehod]. cbn [bind] in Ehod; injection Ehod as <-; eauto.
        - destruct (alignment c); [|injection Eal as <-; reflexivity].
          destruct (align_params b (g_pop1 c) (g_central c) (g_satellite c)) as [d|]; [|discriminate Eal]. injection Eal as <-. eauto. }
      split; [exact Eb|]. cbv zeta in H |- *.
      destruct (bind_ok _ _ _ _ H) as ([] & Eu & Q). rewrite Q. clear Q H.
      assert (U : snd (x_update X (p_power X (fst t)) (x_full X base beta nl hod al)) = Ok tt /\
        p_power X (fst (fst (update_power X (x_full X base beta nl hod al) t))) = fst (x_update X (p_power X (fst t)) (x_full X base beta nl hod al))).
      { revert Eu. unfold update_power, bindM, get, put, lift. cbn [fst snd]. destruct (x_update X (p_power X (fst t)) (x_full X base beta nl hod al)) as [o' r].
        cbn [fst snd]. intros ->. split; reflexivity. }
      destruct U as [U1 U2]. split; [exact U1|]. rewrite <- U2.
      match goal with |- rel _ (p_power X (fst (fst (?m ?s')))) => assert (F : fr m); [|exact (F s')] end.
      repeat first
        [ apply fr_ret | apply fr_lift | apply fr_log | apply fr_power | apply fr_hod | apply fr_matter | apply fr_obs | apply fr_ask | apply fr_bins
        | apply fr_update; apply Ha; assumption | apply fr_when; intro | apply fr_when_; intro | apply fr_bind; [|intro]
        | match goal with |- fr (match ?x with _ => _ end) => destruct x end | progress cbv zeta ].
    Qed.
  End Frame.
End Rel.
