(** Proofs about execute: what a run writes and when it stops. *)
From Coq Require Import Decimal DecimalString Ascii.
From Verif Require Import Base Spec Quad Interp BaseFacts QuadFacts InterpFacts HodModel PkModel AddModel AddSpec AddFacts AddFacts2 PipeModel PipeSpec PipeFacts.
Open Scope string_scope.

Section Run.
  Variable X : ext.
  Implicit Types (s : pst X * list write).

  Lemma bindM_ok {A B} (m : M X A) (f : A -> M X B) s s' b :
    bindM X m f s = (s', Ok b) -> exists s1 a, m s = (s1, Ok a) /\ f a s1 = (s', Ok b).
  Proof. unfold bindM. destruct (m s) as [s1 [a|e]]; [eauto|discriminate]. Qed.
  Lemma lift_ok {A} (r : res A) s s' a : lift X r s = (s', Ok a) -> s' = s /\ r = Ok a.
  Proof. unfold lift. intro H. now injection H as -> ->. Qed.
  Lemma ret_ok {A} (x : A) s s' a : ret X x s = (s', Ok a) -> s' = s /\ a = x.
  Proof. unfold ret. intro H. now injection H as -> ->. Qed.
  Lemma when_ok {A} c (m : M X A) s s' a : when X c m s = (s', Ok a) ->
    (c = true /\ exists v, a = Some v /\ m s = (s', Ok v)) \/ (c = false /\ s' = s /\ a = None).
  Proof.
    unfold when. destruct c.
    - intro H. apply bindM_ok in H as (s1 & v & H1 & H2). apply ret_ok in H2 as [-> ->]. left. eauto.
    - intro H. apply ret_ok in H as [-> ->]. now right.
  Qed.

  (** *** Asking the UpsampledSpectra object *)
  Definition holds (u : ups (xa X)) (p : uparams (xa X)) (h : nat -> obj (xa X)) : Prop :=
    ok_state u /\ us_par u = p /\ us_heap u = h.
  Definition triple (p : uparams (xa X)) h mode (v : arr3 * arr3 * arr3) : Prop :=
    answer p h mode "1h" = Ok (fst (fst v)) /\ answer p h mode "2h" = Ok (snd (fst v)) /\ answer p h mode "tot" = Ok (snd v).
  Lemma ask_ok u p h mode s s' u' v : holds u p h -> ask X u mode s = (s', Ok (u', v)) ->
    s' = s /\ holds u' p h /\ triple p h mode v.
  Proof.
    intros (V & <- & <-) H. unfold ask in H.
    destruct (results_pure u [mode] ["1h"; "2h"; "tot"] V) as (V' & P' & H' & E).
    destruct (results u [mode] ["1h"; "2h"; "tot"]) as [u1 r] eqn:R. cbn [fst snd] in *.
    apply lift_ok in H as [-> H]. split; [reflexivity|].
    destruct r as [[]|]; cbn [bind] in H; [|discriminate].
    cbn [pure_loop pure_all] in E.
    unfold triple. rewrite !asked_pure.
    destruct (pure (us_par u) (us_heap u) mode "1h") as [a|]; cbn [pure_all] in E; [|injection E; discriminate].
    destruct (pure (us_par u) (us_heap u) mode "2h") as [b|]; cbn [pure_all] in E; [|injection E; discriminate].
    destruct (pure (us_par u) (us_heap u) mode "tot") as [t|]; cbn [pure_all] in E; [|injection E; discriminate].
    injection E as E. rewrite E, String.eqb_refl in H. cbn in H. injection H as <- <-.
    split; [split; [exact V'|split; assumption]|]. repeat split.
  Qed.

  (** *** Stages *)
  Lemma save_matter_ok s s' x : save_matter X s = (s', Ok x) -> s' = (fst s, snd s ++ matter_keys)%list.
  Proof.
    intro H. apply bindM_ok in H as (s1 & o & H1 & H). apply bindM_ok in H1 as (s2 & p & H1 & H2).
    apply ret_ok in H2 as [-> ->]. unfold get in H1. injection H1 as <- <-.
    apply bindM_ok in H as (s2 & y & H1 & H). apply lift_ok in H1 as [-> H1].
    unfold log in H. now injection H as <- _.
  Qed.
  Lemma power_ok s s' o : power X s = (s', Ok o) -> s' = s /\ o = p_power X (fst s).
  Proof.
    intro H. apply bindM_ok in H as (s2 & p & H1 & H2). apply ret_ok in H2 as [-> ->].
    unfold get in H1. injection H1 as <- <-. now split.
  Qed.
  Lemma save_hod_ok sec s s' n : save_hod X sec s = (s', Ok n) ->
    s' = (fst s, snd s ++ hod_keys sec n)%list /\ x_bins X (p_power X (fst s)) = Ok n.
  Proof.
    intro H. apply bindM_ok in H as (s1 & o & H1 & H). apply power_ok in H1 as [-> ->].
    apply bindM_ok in H as (s2 & y & H1 & H). apply lift_ok in H1 as [-> H1].
    apply bindM_ok in H as (s2 & z & H2 & H). apply ret_ok in H as [-> ->]. unfold log in H2. injection H2 as <- _. now split.
  Qed.
  Definition obs_keys (sec : string) (n : nat) : list write :=
    note sec "obs_func_definition" ::
    flat_map (fun nb => map (fun m => note sec (m ++ "_" ++ dec (nb + 1))) obs_names) (seq 0 n).
  Lemma obs_loop_ok d sec nbs : forall s s' x, obs_loop X d sec nbs s = (s', Ok x) ->
    s' = (fst s, snd s ++ flat_map (fun nb => map (fun m => note sec (m ++ "_" ++ dec (nb + 1))) obs_names) nbs)%list.
  Proof.
    induction nbs as [|nb nbs IH]; intros s s' x H; cbn [obs_loop] in H.
    - apply ret_ok in H as [-> _]. cbn. rewrite app_nil_r. now destruct s.
    - apply bindM_ok in H as (s1 & y & H1 & H). apply lift_ok in H1 as [-> _].
      apply bindM_ok in H as (s1 & y' & H1 & H). unfold log in H1. injection H1 as <- _. apply IH in H. cbn [fst snd] in H.
      rewrite H. cbn [flat_map]. now rewrite app_assoc.
  Qed.
  Lemma save_obs_ok d sec n s s' x : save_obs X d sec n s = (s', Ok x) -> s' = (fst s, snd s ++ obs_keys sec n)%list.
  Proof.
    intro H. apply bindM_ok in H as (s1 & y & H1 & H). unfold log in H1. injection H1 as <- _.
    apply obs_loop_ok in H. cbn [fst snd] in H. rewrite H, <- app_assoc. reflexivity.
  Qed.
  Lemma do_bins_ok want mode base extra bins u p h s s' u' : holds u p h ->
    do_bins X want mode base extra bins u s = (s', Ok u') ->
    holds u' p h /\ exists v, (want = true -> triple p h mode v) /\
      s' = (fst s, snd s ++ (if want then save_bins base extra bins v else []))%list.
  Proof.
    intros V H. unfold do_bins in H. destruct want.
    - apply bindM_ok in H as (s1 & [u1 v] & H1 & H). apply (ask_ok _ _ _ _ _ _ _ _ V) in H1 as (-> & V1 & T).
      apply bindM_ok in H as (s1 & y & H1 & H). apply ret_ok in H as [-> ->]. unfold log in H1. injection H1 as <- _.
      split; [exact V1|]. exists v. split; [auto|reflexivity].
    - apply ret_ok in H as [-> ->]. split; [exact V|].
      exists ({| r_rows := 0; r_val := fun _ _ _ => 0%R |}, {| r_rows := 0; r_val := fun _ _ _ => 0%R |}, {| r_rows := 0; r_val := fun _ _ _ => 0%R |}).
      split; [discriminate|]. rewrite app_nil_r. now destruct s.
  Qed.
  Lemma update_power_ok q s s' x : update_power X q s = (s', Ok x) ->
    x_update X (p_power X (fst s)) q = (p_power X (fst s'), Ok tt) /\ snd s' = snd s /\
    p_calls X (fst s') = p_calls X (fst s) /\ p_cached X (fst s') = p_cached X (fst s).
  Proof.
    intro H. apply bindM_ok in H as (s1 & p & H1 & H). unfold get in H1. injection H1 as <- <-.
    destruct (x_update X (p_power X (fst s)) q) as [o r]. apply bindM_ok in H as (s1 & y & H1 & H).
    unfold put in H1. injection H1 as <- _. apply lift_ok in H as [-> ->]. cbn. destruct x. repeat split.
  Qed.

  (** *** The beta_nl cache *)
  Lemma bnl_step_ok c b s s' t : bnl_step X c b s = (s', Ok t) ->
    snd s' = snd s /\ p_power X (fst s') = p_power X (fst s) /\ g_update_bnl c <> 0%nat /\
    p_calls X (fst s') = S (p_calls X (fst s)) /\ p_cached X (fst s') = Some t /\
    (Nat.modulo (p_calls X (fst s)) (g_update_bnl c) = 0%nat -> x_compute_bnl X b = Ok t) /\
    (Nat.modulo (p_calls X (fst s)) (g_update_bnl c) <> 0%nat -> p_cached X (fst s) = Some t).
  Proof.
    intro H. apply bindM_ok in H as (s1 & p & H1 & H). unfold get in H1. injection H1 as <- <-.
    destruct (Nat.eqb_spec (g_update_bnl c) 0) as [Z|NZ]; [discriminate|].
    apply bindM_ok in H as (s1 & t1 & H1 & H). apply bindM_ok in H as (s2 & p & H2 & H). unfold get in H2. injection H2 as <- <-.
    apply bindM_ok in H as (s2 & y & H2 & H). apply ret_ok in H as [-> ->]. unfold put in H2. injection H2 as <- _. cbn.
    destruct (Nat.eqb_spec (Nat.modulo (p_calls X (fst s)) (g_update_bnl c)) 0) as [E|N].
    - apply bindM_ok in H1 as (s2 & t2 & H2 & H1). apply lift_ok in H2 as [-> H2].
      apply bindM_ok in H1 as (s2 & y' & H3 & H1). apply ret_ok in H1 as [-> ->]. unfold put in H3. injection H3 as <- _. cbn.
      repeat split; auto; contradiction.
    - destruct (p_cached X (fst s)) as [t2|] eqn:C; [|discriminate]. apply ret_ok in H1 as [-> ->]. rewrite C. repeat split; auto; contradiction.
  Qed.
  Lemma bnl_step_err c b s s' e : bnl_step X c b s = (s', Err e) -> s' = s.
  Proof.
    unfold bnl_step, bindM, get, lift, put, ret. cbn [fst snd].
    destruct (Nat.eqb (g_update_bnl c) 0); [intro H; now injection H|].
    destruct (Nat.eqb _ 0).
    - destruct (x_compute_bnl X b); intro H; now injection H.
    - destruct (p_cached X (fst s)); intro H; now injection H.
  Qed.
End Run.
