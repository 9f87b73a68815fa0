(** The beta_nl schedule, early exits, name collisions, independence of the previous state. *)
From Coq Require Import Decimal DecimalString Ascii.
From Verif Require Import Base Spec Quad Interp BaseFacts QuadFacts InterpFacts HodModel PkModel AddModel AddSpec AddFacts AddFacts2 PipeModel PipeSpec PipeFacts PipeFacts2 PipeFacts3 PipeFacts4.
Open Scope string_scope.

Section More.
  Variable X : ext.

  (** *** Stages that leave the cache alone *)
  Definition keeps {A} (m : M X A) : Prop := forall s,
    p_calls X (fst (fst (m s))) = p_calls X (fst s) /\ p_cached X (fst (fst (m s))) = p_cached X (fst s).
  Lemma keeps_bind {A B} (m : M X A) (f : A -> M X B) : keeps m -> (forall a, keeps (f a)) -> keeps (bindM X m f).
  Proof.
    intros Hm Hf s. unfold bindM. specialize (Hm s). destruct (m s) as [s1 [a|e]]; cbn [fst] in *; [|exact Hm].
    destruct (Hf a s1) as [A1' B1']. rewrite A1', B1'. exact Hm.
  Qed.
  Lemma keeps_ret {A} (a : A) : keeps (ret X a). Proof. intro s. split; reflexivity. Qed.
  Lemma keeps_lift {A} (r : res A) : keeps (lift X r). Proof. intro s. split; reflexivity. Qed.
  Lemma keeps_log w : keeps (log X w). Proof. intro s. split; reflexivity. Qed.
  Lemma keeps_get : keeps (get X). Proof. intro s. split; reflexivity. Qed.
  Lemma keeps_power : keeps (power X). Proof. apply keeps_bind; [apply keeps_get|intro; apply keeps_ret]. Qed.
  Lemma keeps_update q : keeps (update_power X q).
  Proof.
    intro s. unfold update_power, bindM, get, put, lift. destruct (x_update X (p_power X (fst s)) q). cbn. split; reflexivity.
  Qed.
  Lemma keeps_when {A} c (m : M X A) : keeps m -> keeps (when X c m).
  Proof. intro H. unfold when. destruct c; [apply keeps_bind; [exact H|intro; apply keeps_ret]|apply keeps_ret]. Qed.
  Lemma keeps_when_ c (m : M X unit) : keeps m -> keeps (when_ X c m).
  Proof. intro H. unfold when_. destruct c; [exact H|apply keeps_ret]. Qed.
  Lemma keeps_hod sec : keeps (save_hod X sec).
  Proof. apply keeps_bind; [apply keeps_power|]. intro. apply keeps_bind; [apply keeps_lift|]. intro. apply keeps_bind; [apply keeps_log|]. intro. apply keeps_ret. Qed.
  Lemma keeps_matter : keeps (save_matter X).
  Proof. apply keeps_bind; [apply keeps_power|]. intro. apply keeps_bind; [apply keeps_lift|]. intro. apply keeps_log. Qed.
  Lemma keeps_obs_loop d sec nbs : keeps (obs_loop X d sec nbs).
  Proof.
    induction nbs as [|nb nbs IH]; cbn [obs_loop]; [apply keeps_ret|]. apply keeps_bind; [apply keeps_lift|]. intro.
    apply keeps_bind; [apply keeps_log|]. intro. exact IH.
  Qed.
  Lemma keeps_obs d sec n : keeps (save_obs X d sec n).
  Proof. apply keeps_bind; [apply keeps_log|]. intro. apply keeps_obs_loop. Qed.
  Lemma keeps_ask u mode : keeps (ask X u mode).
  Proof. unfold ask. destruct (results u [mode] ["1h"; "2h"; "tot"]). apply keeps_lift. Qed.
  Lemma keeps_bins want mode base extra bins u : keeps (do_bins X want mode base extra bins u).
  Proof.
    unfold do_bins. destruct want; [|apply keeps_ret]. apply keeps_bind; [apply keeps_ask|]. intro.
    apply keeps_bind; [apply keeps_log|]. intro. apply keeps_ret.
  Qed.
  Ltac keeps_tac := repeat first
    [ apply keeps_ret | apply keeps_lift | apply keeps_log | apply keeps_power | apply keeps_update
    | apply keeps_hod | apply keeps_matter | apply keeps_obs | apply keeps_ask | apply keeps_bins
    | apply keeps_when | apply keeps_when_ | apply keeps_bind; [|intro]
    | match goal with |- keeps (match ?x with _ => _ end) => destruct x end
    | match goal with |- keeps (if ?x then _ else _) => destruct x end
    | progress cbv zeta ].

  (** After the cache has been consulted nothing touches it. *)
  Lemma execute_cache c b st lg : g_mode c = Some "bnl" ->
    let s' := fst (fst (execute X c b (st, lg))) in
    match x_read_base X b with
    | Err _ => s' = st
    | Ok _ => p_calls X s' = p_calls X (fst (fst (bnl_step X c b (st, lg)))) /\ p_cached X s' = p_cached X (fst (fst (bnl_step X c b (st, lg))))
    end.
  Proof.
    intros E s'. unfold s'. clear s'. destruct (execute X c b (st, lg)) as [[s' lg'] r] eqn:H. cbn [fst].
    unfold execute in H. unfold bindM at 1 in H. unfold lift at 1 in H. destruct (x_read_base X b) as [base|e]; [|now injection H].
    unfold bindM at 1 in H. unfold when at 1 in H. rewrite mode_dec in H. destruct (option_eq_dec (g_mode c) "bnl"); [|contradiction].
    unfold bindM at 1 in H. destruct (bnl_step X c b (st, lg)) as [s1 [t|e']] eqn:B; [|injection H as -> _; split; reflexivity].
    unfold ret at 1 in H. cbn [fst].
    match type of H with ?m s1 = _ => assert (K : keeps m) end.
    { keeps_tac. }
    destruct (K s1) as [K1 K2]. rewrite H in K1, K2. split; [exact K1|exact K2].
  Qed.

  (** *** Schedule *)
  Lemma bnl_state_log c b st lg lg' : fst (fst (bnl_step X c b (st, lg))) = fst (fst (bnl_step X c b (st, lg'))).
  Proof.
    unfold bnl_step, bindM, get, lift, put, ret. cbn [fst snd].
    destruct (Nat.eqb (g_update_bnl c) 0); [reflexivity|].
    destruct (Nat.eqb _ 0); [destruct (x_compute_bnl X b)|destruct (p_cached X st)]; reflexivity.
  Qed.
  Definition in_step (c : config) (st : pst X) (l : list (block * x_table X)) : Prop :=
    p_calls X st = List.length l /\
    (forall n b t, nth_error l n = Some (b, t) ->
       exists b0, nth_error l (n / g_update_bnl c * g_update_bnl c) = Some (b0, t) /\ x_compute_bnl X b0 = Ok t) /\
    (l <> [] -> exists b t, nth_error l (List.length l - 1) = Some (b, t) /\ p_cached X st = Some t).
  Theorem schedule c st l : g_mode c = Some "bnl" -> history X c st l -> g_update_bnl c <> 0%nat -> in_step c st l.
  Proof.
    intros Em H NZ. induction H as [o|b st st' l t lg lg' r H IH E RB B|b st st' l e lg lg' r H IH E S].
    - split; [reflexivity|]. split; [intros [|n] b t Hn; discriminate|congruence].
    - destruct IH as (I1 & I2 & I3). destruct RB as (base & RB).
      pose proof (execute_cache c b st lg Em) as K. rewrite RB, E in K. cbn [fst] in K.
      rewrite (bnl_state_log c b st lg []) in K.
      destruct (bnl_step X c b (st, [])) as [s1 r1] eqn:BS. cbn [snd fst] in B, K. subst r1.
      apply bnl_step_ok in BS as (_ & _ & _ & C1 & C2 & C3 & C4). cbn [fst] in C1, C2, C3, C4. destruct K as [K1 K2].
      split; [|split].
      + rewrite K1, C1, I1, app_length. cbn. lia.
      + intros n b' t' Hn. destruct (Nat.lt_ge_cases n (List.length l)) as [L|L].
        * rewrite nth_error_app1 in Hn by exact L. destruct (I2 _ _ _ Hn) as (b0 & N0 & X0). exists b0. split; [|exact X0].
          rewrite nth_error_app1; [exact N0|]. apply nth_error_Some. congruence.
        * assert (n = List.length l).
          { assert (n < List.length (l ++ [(b, t)]))%nat by (apply nth_error_Some; congruence). rewrite app_length in H0. cbn in H0. lia. }
          subst n. rewrite nth_error_app2 in Hn by lia. rewrite Nat.sub_diag in Hn. injection Hn as <- <-.
          rewrite I1 in C3, C4. set (u := g_update_bnl c) in *. set (N := List.length l) in *.
          pose proof (Nat.div_mod N u NZ) as DM.
          destruct (Nat.eq_dec (N mod u) 0) as [Z|Z].
          -- exists b. split; [|exact (C3 Z)]. replace (N / u * u)%nat with N by lia. rewrite nth_error_app2 by lia. fold N. now rewrite Nat.sub_diag.
          -- assert (NE : l <> []). { intros ->. apply Z. unfold N. cbn. apply Nat.mod_0_l, NZ. }
             destruct (I3 NE) as (b1 & t1 & L1 & C5). specialize (C4 Z). rewrite C5 in C4. injection C4 as ->.
             destruct (I2 _ _ _ L1) as (b0 & N0 & X0). fold N in L1, N0. exists b0. split; [|exact X0].
             assert (D : ((N - 1) / u = N / u)%nat).
             { symmetry. apply Nat.div_unique with (r := (N mod u - 1)%nat); [pose proof (Nat.mod_upper_bound N u NZ); lia|].
               lia. }
             rewrite D in N0. rewrite nth_error_app1; [exact N0|]. apply nth_error_Some. congruence.
      + intros _. exists b, t. split; [|now rewrite K2].
        rewrite app_length. cbn [List.length]. rewrite nth_error_app2 by lia. replace (List.length l + 1 - 1 - List.length l)%nat with 0%nat by lia. reflexivity.
    - assert (ST : p_calls X st' = p_calls X st /\ p_cached X st' = p_cached X st).
      { pose proof (execute_cache c b st lg Em) as K. rewrite E in K. cbn [fst] in K. destruct (x_read_base X b) as [base|] eqn:RB.
        - destruct S as [(e' & S)|S]; [discriminate|]. rewrite (bnl_state_log c b st lg []) in K.
          destruct (bnl_step X c b (st, [])) as [s1 r1] eqn:BS. cbn [snd fst] in S, K. subst r1. apply bnl_step_err in BS. subst s1. exact K.
        - subst st'. split; reflexivity. }
      destruct ST as [S1 S2]. destruct IH as (I1 & I2 & I3). split; [congruence|]. split; [exact I2|]. now rewrite S2.
  Qed.
  Theorem schedule_zero c b st : g_update_bnl c = 0%nat -> g_mode c = Some "bnl" -> forall lg,
    snd (execute X c b (st, lg)) = match x_read_base X b with Ok _ => Err "ZeroDivisionError" | Err e => Err e end.
  Proof.
    intros Z E lg. unfold execute. unfold bindM at 1. unfold lift at 1. destruct (x_read_base X b) as [base|e]; [|reflexivity].
    unfold bindM at 1. unfold when at 1. rewrite mode_dec. destruct (option_eq_dec (g_mode c) "bnl"); [|contradiction].
    unfold bnl_step, bindM, get. cbn [fst]. rewrite Z. reflexivity.
  Qed.
  (** Every call reaches one of the two continuations of a history. *)
  Theorem history_total c st l b lg : g_mode c = Some "bnl" -> history X c st l ->
    exists l', history X c (fst (fst (execute X c b (st, lg)))) l' /\ (l' = l \/ exists t, l' = (l ++ [(b, t)])%list).
  Proof.
    intros E H. destruct (execute X c b (st, lg)) as [[st' lg'] r] eqn:R. cbn [fst].
    destruct (x_read_base X b) as [base|e] eqn:RB.
    - destruct (snd (bnl_step X c b (st, []))) as [t|e] eqn:B.
      + exists (l ++ [(b, t)])%list. split; [|eauto]. eapply history_used; eauto.
      + exists l. split; [|auto]. eapply history_stopped; eauto.
    - exists l. split; [|auto]. apply (history_stopped X c b st st' l e lg lg' r H R). left. eauto.
  Qed.

  (** *** Early exits *)
  Lemma bnl_quiet c b s : snd (fst (bnl_step X c b s)) = snd s /\ p_power X (fst (fst (bnl_step X c b s))) = p_power X (fst s).
  Proof.
    destruct (bnl_step X c b s) as [s' [t|e]] eqn:B; cbn [fst].
    - apply bnl_step_ok in B as (B1 & B2 & _). now split.
    - apply bnl_step_err in B. now subst.
  Qed.
  Theorem missing_aborts c b st lg : orb (galaxy c) (alignment c) = true ->
    (exists p, In p (required_poisson (g_poisson c)) /\ b "pk_parameters" p = None) \/
    (exists n, hod_needs (g_hod_model c) (g_nbins c) n /\ b (g_hod_values c) n = None) \/
    required_poisson (g_poisson c) = [] \/ required_hod (g_hod_model c) = [] ->
    exists st' e, execute X c b (st, lg) = ((st', lg), Err e) /\ p_power X st' = p_power X st.
  Proof.
    intros W H. unfold execute. unfold bindM at 1. unfold lift at 1. destruct (x_read_base X b) as [base|e]; [|eauto].
    unfold bindM at 1.
    assert (Q : snd (fst (when X (mode_is c "bnl") (bnl_step X c b) (st, lg))) = lg /\
                p_power X (fst (fst (when X (mode_is c "bnl") (bnl_step X c b) (st, lg)))) = p_power X st).
    { unfold when. destruct (mode_is c "bnl"); [|split; reflexivity]. destruct (bnl_quiet c b (st, lg)) as [B1 B2].
      unfold bindM. destruct (bnl_step X c b (st, lg)) as [s1 [t|e]]; cbn in *; now split. }
    destruct (when X (mode_is c "bnl") (bnl_step X c b) (st, lg)) as [[st1 lg1] [beta|e]]; cbn [fst snd] in Q; destruct Q as [-> Q]; [|eauto].
    unfold bindM at 1.
    assert (N : exists r, when X (g_response c || mode_is c "fortuna") (lift X (x_read_nl X b)) (st1, lg) = ((st1, lg), r)).
    { unfold when, bindM, lift, ret. destruct (g_response c || mode_is c "fortuna")%bool; [|eauto]. destruct (x_read_nl X b); eauto. }
    destruct N as [[nl|e] ->]; [|eauto].
    unfold bindM at 1. unfold when at 1. rewrite W. unfold bindM at 1. unfold bindM at 1. unfold lift at 1.
    destruct (poisson_params (x_missing X) b (g_poisson c)) as [pp|e] eqn:P; [|eauto].
    unfold bindM at 1. unfold lift at 1.
    destruct (hod_params b (g_hod_values c) (g_hod_model c) (g_nbins c)) as [hp|e] eqn:HP; [|eauto].
    exfalso. destruct (poisson_params_spec (x_missing X) b (g_poisson c)) as (P1 & P2 & P3 & _).
    destruct (hod_params_spec b (g_hod_values c) (g_hod_model c) (g_nbins c)) as (H1 & H2 & H3 & _).
    destruct H as [(p & I & B)|[(n & I & B)|[Z|Z]]].
    - destruct (P3 p I B). congruence.
    - rewrite (H3 n I B) in HP. discriminate.
    - rewrite (P2 Z) in P. discriminate.
    - rewrite (H2 Z) in HP. discriminate.
  Qed.

  (** *** Independence of the previous state *)
  Definition same (s1 s2 : pst X * list write) : Prop := p_power X (fst s1) = p_power X (fst s2) /\ snd s1 = snd s2.
  Definition sim {A} (m : M X A) : Prop := forall s1 s2, same s1 s2 -> same (fst (m s1)) (fst (m s2)) /\ snd (m s1) = snd (m s2).
  Lemma sim_bind {A B} (m : M X A) (f : A -> M X B) : sim m -> (forall a, sim (f a)) -> sim (bindM X m f).
  Proof.
    intros Hm Hf s1 s2 S. unfold bindM. destruct (Hm s1 s2 S) as [S' E]. destruct (m s1) as [t1 r1], (m s2) as [t2 r2]. cbn [fst snd] in S', E. subst r2.
    destruct r1; [now apply Hf|]. split; [exact S'|reflexivity].
  Qed.
  Lemma sim_ret {A} (a : A) : sim (ret X a). Proof. intros s1 s2 S. now split. Qed.
  Lemma sim_lift {A} (r : res A) : sim (lift X r). Proof. intros s1 s2 S. now split. Qed.
  Lemma sim_log w : sim (log X w). Proof. intros s1 s2 [S1 S2]. unfold log, same. cbn. now rewrite S1, S2. Qed.
  Lemma sim_power : sim (power X). Proof. intros s1 s2 [S1 S2]. unfold power, bindM, get, ret, same. cbn. now rewrite S1, S2. Qed.
  Lemma sim_update q : sim (update_power X q).
  Proof.
    intros s1 s2 [S1 S2]. unfold update_power, bindM, get, put, lift, same. rewrite S1.
    destruct (x_update X (p_power X (fst s2)) q). cbn. now rewrite S2.
  Qed.
  Lemma sim_when {A} c (m : M X A) : sim m -> sim (when X c m).
  Proof. intro H. unfold when. destruct c; [apply sim_bind; [exact H|intro; apply sim_ret]|apply sim_ret]. Qed.
  Lemma sim_when_ c (m : M X unit) : sim m -> sim (when_ X c m).
  Proof. intro H. unfold when_. destruct c; [exact H|apply sim_ret]. Qed.
  Lemma sim_hod sec : sim (save_hod X sec).
  Proof. apply sim_bind; [apply sim_power|]. intro. apply sim_bind; [apply sim_lift|]. intro. apply sim_bind; [apply sim_log|]. intro. apply sim_ret. Qed.
  Lemma sim_matter : sim (save_matter X).
  Proof. apply sim_bind; [apply sim_power|]. intro. apply sim_bind; [apply sim_lift|]. intro. apply sim_log. Qed.
  Lemma sim_obs_loop d sec nbs : sim (obs_loop X d sec nbs).
  Proof.
    induction nbs as [|nb nbs IH]; cbn [obs_loop]; [apply sim_ret|]. apply sim_bind; [apply sim_lift|]. intro.
    apply sim_bind; [apply sim_log|]. intro. exact IH.
  Qed.
  Lemma sim_obs d sec n : sim (save_obs X d sec n).
  Proof. apply sim_bind; [apply sim_log|]. intro. apply sim_obs_loop. Qed.
  Lemma sim_ask u mode : sim (ask X u mode).
  Proof. unfold ask. destruct (results u [mode] ["1h"; "2h"; "tot"]). apply sim_lift. Qed.
  Lemma sim_bins want mode base extra bins u : sim (do_bins X want mode base extra bins u).
  Proof.
    unfold do_bins. destruct want; [|apply sim_ret]. apply sim_bind; [apply sim_ask|]. intro.
    apply sim_bind; [apply sim_log|]. intro. apply sim_ret.
  Qed.
  (** From here on the state before the update is out of sight. *)
  Lemma forget q {B} (f : unit -> M X B) s1 s2 : (forall a, sim (f a)) -> snd s1 = snd s2 ->
    x_update X (p_power X (fst s1)) q = x_update X (p_power X (fst s2)) q ->
    snd (bindM X (update_power X q) f s1) = snd (bindM X (update_power X q) f s2) /\
    snd (fst (bindM X (update_power X q) f s1)) = snd (fst (bindM X (update_power X q) f s2)) /\
    p_power X (fst (fst (bindM X (update_power X q) f s1))) = p_power X (fst (fst (bindM X (update_power X q) f s2))).
  Proof.
    intros Hf L E. unfold update_power. unfold bindM, get, put, lift. cbn [fst snd]. rewrite E.
    destruct (x_update X (p_power X (fst s2)) q) as [o [[]|e]]; cbn [fst snd]; [|now rewrite L].
    match goal with |- snd (f tt ?a) = snd (f tt ?b) /\ _ => assert (S : same a b) by (split; [reflexivity|exact L]) end.
    destruct (Hf tt _ _ S) as [[S1 S2] S3]. now repeat split.
  Qed.
  Theorem history_free c b st1 st2 lg : g_mode c <> Some "bnl" ->
    (forall q, x_update X (p_power X st1) q = x_update X (p_power X st2) q) ->
    snd (execute X c b (st1, lg)) = snd (execute X c b (st2, lg)) /\
    snd (fst (execute X c b (st1, lg))) = snd (fst (execute X c b (st2, lg))) /\
    (snd (execute X c b (st1, lg)) = Ok tt ->
     p_power X (fst (fst (execute X c b (st1, lg)))) = p_power X (fst (fst (execute X c b (st2, lg))))).
  Proof.
    intros NB E. unfold execute.
    assert (R : forall B (P : B -> M X unit),
      (forall a, snd (P a (st1, lg)) = snd (P a (st2, lg)) /\ snd (fst (P a (st1, lg))) = snd (fst (P a (st2, lg))) /\
         (snd (P a (st1, lg)) = Ok tt -> p_power X (fst (fst (P a (st1, lg)))) = p_power X (fst (fst (P a (st2, lg)))))) ->
      forall m : M X B, (exists r, m (st1, lg) = ((st1, lg), r) /\ m (st2, lg) = ((st2, lg), r)) ->
      snd (bindM X m P (st1, lg)) = snd (bindM X m P (st2, lg)) /\ snd (fst (bindM X m P (st1, lg))) = snd (fst (bindM X m P (st2, lg))) /\
      (snd (bindM X m P (st1, lg)) = Ok tt -> p_power X (fst (fst (bindM X m P (st1, lg)))) = p_power X (fst (fst (bindM X m P (st2, lg)))))).
    { intros B P HP m (r & M1 & M2). unfold bindM. rewrite M1, M2. destruct r as [a|e]; [apply HP|]. cbn. repeat split. discriminate. }
    assert (NM : mode_is c "bnl" = false) by (rewrite mode_dec; destruct (option_eq_dec (g_mode c) "bnl"); congruence).
    apply R; [intro base|unfold lift; eauto].
    apply R; [intro beta|rewrite NM; unfold when, ret; eauto].
    apply R; [intro nl|unfold when, bindM, lift, ret; destruct (g_response c || mode_is c "fortuna")%bool; [destruct (x_read_nl X b)|]; eauto].
    apply R; [intro hod|unfold when, bindM, lift, ret; destruct (galaxy c || alignment c)%bool; [destruct (poisson_params (x_missing X) b (g_poisson c));
      [destruct (hod_params b (g_hod_values c) (g_hod_model c) (g_nbins c))|]|]; eauto].
    apply R; [intro al|unfold when, bindM, lift, ret; destruct (alignment c); [destruct (align_params b (g_pop1 c) (g_central c) (g_satellite c))|]; eauto].
    apply R; [intro al2|unfold when, bindM, lift, ret; destruct (g_split c); [destruct al as [d|];
      [destruct (align_params_2 b (g_pop2 c) (g_central c) (g_satellite c) d)|]|]; eauto].
    cbv zeta.
    match goal with |- snd (bindM X (update_power X ?q) ?f (st1, lg)) = _ /\ _ =>
      destruct (forget q f (st1, lg) (st2, lg)) as (F1 & F2 & F3); [|reflexivity|apply E|] end.
    - intro. repeat first
      [ apply sim_ret | apply sim_lift | apply sim_log | apply sim_power | apply sim_update
      | apply sim_hod | apply sim_matter | apply sim_obs | apply sim_ask | apply sim_bins | apply sim_when | apply sim_when_ | apply sim_bind; [|intro]
      | match goal with |- sim (match ?x with _ => _ end) => destruct x end | progress cbv zeta ].
    - split; [exact F1|]. split; [exact F2|]. intros _. exact F3.
  Qed.
End More.
