(** Facts about the caching machine: what a read returns after any history. *)
From Coq Require Import String List Bool Arith Lia.
From Verif Require Import CacheModel CacheTable CacheSpec.
Import ListNotations.
Open Scope string_scope.
Open Scope list_scope.

Lemma mem_In x l : mem x l = true <-> In x l.
Proof.
  unfold mem; rewrite existsb_exists; split.
  - intros (y & H & E). apply String.eqb_eq in E; now subst.
  - intro H. exists x. split; [exact H | apply String.eqb_refl].
Qed.
Lemma mem_not x l : mem x l = false <-> ~ In x l.
Proof.
  rewrite <- mem_In. destruct (mem x l); split; intro H; try discriminate; auto.
  now destruct H.
Qed.

Section Facts.
  Variable V : Type.
  Variable sel : string -> V -> string.
  Variable code : string -> prog V.
  Variable shape : string -> sh.
  Variable permanent switch selectors frozen : list string.
  Variable safe : string -> bool.   (* permanents all of whose parameters are frozen *)
  Hypothesis conform : forall q, has_shape sel (code q) (shape q).

  (** The value a computation has when nothing is cached. *)
  Inductive value (e : string -> V) : prog V -> V -> Prop :=
  | v_ret v : value e (Ret v) v
  | v_par p k v : value e (k (e p)) v -> value e (RP p k) v
  | v_q q k w v : value e (code q) w -> value e (k w) v -> value e (RQ q k) v.

  (** Parameters consulted by a shape, and whether a permanent that is not safe is. *)
  Inductive trace (e : string -> V) : sh -> list string -> bool -> Prop :=
  | t_ret : trace e SRet [] false
  | t_par p s d t : trace e s d t -> trace e (SP p s) (p :: d) t
  | t_if p vs a b d t :
      trace e (if mem (sel p (e p)) vs then a else b) d t -> trace e (SIf p vs a b) (p :: d) t
  | t_q q s d0 t0 d t :
      (mem q permanent = false \/ safe q = true) ->
      trace e (shape q) d0 t0 -> trace e s d t -> trace e (SQ q s) (d0 ++ d) (t0 || t)
  | t_perm q s d t :
      mem q permanent = true -> safe q = false ->
      trace e s d t -> trace e (SQ q s) d true.

  Hypothesis safe_frozen : forall q e d t,
    mem q permanent = true -> safe q = true -> trace e (shape q) d t -> incl d frozen.

  (** Every branch is on a switch or on a declared selector. *)
  Inductive guarded : sh -> Prop :=
  | g_ret : guarded SRet
  | g_par p s : guarded s -> guarded (SP p s)
  | g_q q s : guarded s -> guarded (SQ q s)
  | g_if p vs a b : (In p switch \/ In p selectors) -> guarded a -> guarded b ->
      guarded (SIf p vs a b).
  Hypothesis guards : forall q, guarded (shape q).

  Lemma inv_q q k h : has_shape sel (RQ q k) h ->
    exists h', h = SQ q h' /\ forall v, has_shape sel (k v) h'.
  Proof. intro H; inversion H; subst; eauto. Qed.
  Lemma inv_par p k h : has_shape sel (RP p k) h ->
    (exists h', h = SP p h' /\ forall v, has_shape sel (k v) h') \/
    (exists vs a b, h = SIf p vs a b /\
       forall v, has_shape sel (k v) (if mem (sel p v) vs then a else b)).
  Proof. intro H; inversion H; subst; [left|right]; eauto 8. Qed.

  Lemma value_det e c v : value e c v -> forall v', value e c v' -> v = v'.
  Proof.
    induction 1; intros v' H'; inversion H'; subst; auto.
    match goal with W : value e (code q) _ |- _ => pose proof (IHvalue1 _ W); subst end. auto.
  Qed.

  Lemma trace_det e s d t : trace e s d t ->
    forall d' t', trace e s d' t' -> d = d' /\ t = t'.
  Proof.
    induction 1; intros d' t' H'; inversion H'; subst; auto;
      repeat match goal with
             | IH : forall d' t', trace e ?s d' t' -> _, T : trace e ?s _ _ |- _ =>
                 destruct (IH _ _ T); clear T; subst
             end; auto;
      match goal with D : _ \/ _ |- _ => destruct D; congruence end.
  Qed.

  (** Agreement of two parameter settings as far as a trace can see. *)
  Definition agree (e e' : string -> V) (d : list string) : Prop :=
    (forall p, In p selectors -> ~ In p switch -> sel p (e p) = sel p (e' p)) /\
    (forall p, In p switch -> In p d -> sel p (e p) = sel p (e' p)).

  Lemma agree_incl e e' d d' : incl d' d -> agree e e' d -> agree e e' d'.
  Proof. intros H [A B]; split; auto. Qed.

  Lemma trace_move e s d t : trace e s d t -> guarded s ->
    forall e', agree e e' d -> trace e' s d t.
  Proof.
    induction 1; intros G e' A; inversion G; subst.
    - constructor.
    - constructor. apply IHtrace; auto. eapply agree_incl; [|exact A]. intros x Hx; now right.
    - constructor.
      assert (E : sel p (e p) = sel p (e' p)).
      { destruct A as [A B].
        destruct (in_dec string_dec p switch) as [i|n].
        - apply B; [exact i | now left].
        - apply A; [|exact n]. match goal with G : _ \/ _ |- _ => destruct G; [contradiction | assumption] end. }
      rewrite <- E. apply IHtrace.
      + destruct (mem (sel p (e p)) vs); assumption.
      + eapply agree_incl; [|exact A]. intros x Hx; now right.
    - constructor; auto.
      + apply IHtrace1; [apply guards|]. eapply agree_incl; [|exact A]. apply incl_appl, incl_refl.
      + apply IHtrace2; [assumption|]. eapply agree_incl; [|exact A]. apply incl_appr, incl_refl.
    - apply t_perm with (t := t); auto.
  Qed.

  Lemma value_move e c v : value e c v -> forall s d t, has_shape sel c s -> trace e s d t ->
    t = false -> forall e', (forall p, In p d -> e p = e' p) -> value e' c v.
  Proof.
    induction 1; intros s d t HS HT Ht e' A.
    - constructor.
    - inversion HS; subst.
      + inversion HT; subst. constructor. rewrite <- (A p) by now left.
        eapply IHvalue; eauto. intros x Hx; apply A; now right.
      + inversion HT; subst. constructor. rewrite <- (A p) by now left.
        eapply IHvalue; eauto. intros x Hx; apply A; now right.
    - inversion HS; subst. inversion HT; subst.
      match goal with Z : _ || _ = false |- _ => apply orb_false_iff in Z; destruct Z as [-> ->] end.
      econstructor.
      + eapply IHvalue1; eauto. intros x Hx; apply A, in_or_app; now left.
      + eapply IHvalue2; eauto. intros x Hx; apply A, in_or_app; now right.
  Qed.

  (** Invariant of the cache. *)
  Definition sound_cell (e : string -> V) (q : string) (c : cell V) : Prop :=
    (mem q permanent = false ->
       exists e0 d0 t0, trace e0 (shape q) d0 t0 /\ incl d0 (c_idx c ++ frozen) /\
         agree e0 e d0 /\
         (c_good c = true -> t0 = false -> value e (code q) (c_val c))) /\
    (mem q permanent = true -> safe q = true ->
       exists d0 t0, trace e (shape q) d0 t0 /\
         (t0 = false -> value e (code q) (c_val c))).
  Definition sound (s : object V) : Prop :=
    forall q c, cache s q = Some c -> sound_cell (par s) q c.

  Lemma sound_fresh e : sound (fresh e).
  Proof. intros q c H. discriminate. Qed.

  Lemma sound_store s q c : sound s -> sound_cell (par s) q c -> sound (store s q c).
  Proof.
    intros S C x cx. unfold store, put; simpl.
    destruct (String.eqb x q) eqn:E.
    - apply String.eqb_eq in E; subst. intro H; injection H as <-. exact C.
    - apply S.
  Qed.

  Lemma agree_refl e d : agree e e d.
  Proof. split; auto. Qed.

  Lemma run_sound s c v d s' : run code permanent s c v d s' -> sound s ->
    forall h, has_shape sel c h ->
    par s' = par s /\ sound s' /\
    exists D t, trace (par s) h D t /\ incl D (d ++ frozen) /\
      (t = false -> value (par s) c v).
  Proof.
    induction 1; intros S h HS.
    - inversion HS; subst. split; [reflexivity|]. split; [exact S|].
      exists [], false. repeat split; try constructor. intros x [].
    - assert (T : exists D t, trace (par s) h (p :: D) t /\ incl D (d ++ frozen) /\
                  par s' = par s /\ sound s' /\
                  (t = false -> value (par s) (k (par s p)) v)).
      { destruct (inv_par _ _ _ HS) as [(h' & -> & HK)|(vs & a & b & -> & HK)].
        - destruct (IHrun S _ (HK _)) as (E & S' & D & t & T & I & Hv).
          exists D, t. split; [now constructor|]. split; [exact I|]. split; [exact E|]. split; [exact S'|exact Hv].
        - destruct (IHrun S _ (HK _)) as (E & S' & D & t & T & I & Hv).
          exists D, t. split; [now constructor|]. split; [exact I|]. split; [exact E|]. split; [exact S'|exact Hv]. }
      destruct T as (D & t & T & I & E & S' & Hv).
      split; [exact E|]. split; [exact S'|]. exists (p :: D), t. split; [exact T|]. split.
      + intros x [<-|Hx]; [now left | right; now apply I].
      + intro Ht. constructor. now apply Hv.
    - destruct (inv_q _ _ _ HS) as (h' & -> & HK).
      destruct (IHrun S _ (HK _)) as (E & S' & D & t & T & I & Hv).
      split; [exact E|]. split; [exact S'|].
      destruct (S q c H0) as [C _]. destruct (C H) as (e0 & d0 & t0 & T0 & I0 & A0 & V0).
      exists (d0 ++ D), (t0 || t). split; [|split].
      + constructor; auto. eapply trace_move; eauto.
      + apply incl_app.
        * intros x Hx. apply I0 in Hx. rewrite !in_app_iff in *. tauto.
        * intros x Hx. apply I in Hx. rewrite !in_app_iff in *. tauto.
      + intro Ht. apply orb_false_iff in Ht. destruct Ht. econstructor; eauto.
    - destruct (inv_q _ _ _ HS) as (h' & -> & HK).
      destruct (IHrun1 S _ (conform q)) as (E1 & S1 & D1 & t1 & T1 & I1 & V1).
      destruct (S q c H0) as [C _]. destruct (C H) as (e0 & d00 & t0 & T0 & I0 & A0 & V0).
      pose proof (trace_move _ _ _ _ T0 (guards q) _ A0) as T0'.
      destruct (trace_det _ _ _ _ T0' _ _ T1) as [<- <-].
      assert (S2 : sound (store s1 q {| c_val := w; c_good := true; c_idx := c_idx c |})).
      { apply sound_store; [exact S1|]. split.
        - intros _. exists e0, d00, t0. rewrite E1. repeat split; auto; apply A0.
        - intros P; congruence. }
      destruct (IHrun2 S2 _ (HK _)) as (E & S' & D & t & T & I & Hv).
      simpl in E, T, Hv. rewrite E1 in E, T, Hv.
      split; [exact E|]. split; [exact S'|].
      exists (d00 ++ D), (t0 || t). split; [|split].
      + constructor; auto.
      + apply incl_app.
        * intros x Hx. match goal with Z : _ \/ _ |- _ => destruct Z as [J|J] end.
          -- apply I0 in Hx. rewrite !in_app_iff in *. destruct Hx as [Hx|Hx]; [apply J in Hx|]; tauto.
          -- apply I1 in Hx. rewrite !in_app_iff in *. destruct Hx as [Hx|Hx]; [apply J in Hx|]; tauto.
        * intros x Hx. apply I in Hx. rewrite !in_app_iff in *. tauto.
      + intro Ht. apply orb_false_iff in Ht. destruct Ht. econstructor; eauto.
    - destruct (inv_q _ _ _ HS) as (h' & -> & HK).
      destruct (IHrun1 S _ (conform q)) as (E1 & S1 & D1 & t1 & T1 & I1 & V1).
      assert (S2 : sound (store s1 q {| c_val := w; c_good := true; c_idx := d0 |})).
      { apply sound_store; [exact S1|]. split.
        - intros _. exists (par s), D1, t1. rewrite E1. repeat split; auto.
        - intros P; congruence. }
      destruct (IHrun2 S2 _ (HK _)) as (E & S' & D & t & T & I & Hv).
      simpl in E, T, Hv. rewrite E1 in E, T, Hv.
      split; [exact E|]. split; [exact S'|].
      exists (D1 ++ D), (t1 || t). split; [|split].
      + constructor; auto.
      + apply incl_app; intros x Hx; [apply I1 in Hx | apply I in Hx];
          rewrite !in_app_iff in *; tauto.
      + intro Ht. apply orb_false_iff in Ht. destruct Ht. econstructor; eauto.
    - destruct (inv_q _ _ _ HS) as (h' & -> & HK).
      destruct (IHrun S _ (HK _)) as (E & S' & D & t & T & I & Hv).
      split; [exact E|]. split; [exact S'|].
      destruct (safe q) eqn:Q.
      + destruct (S q c H0) as [_ C]. destruct (C H Q) as (d0 & t0 & T0 & V0).
        exists (d0 ++ D), (t0 || t). split; [|split].
        * constructor; auto.
        * apply incl_app.
          -- intros x Hx. apply in_or_app; right. eapply safe_frozen; eauto.
          -- intros x Hx. apply I in Hx. exact Hx.
        * intro Ht. apply orb_false_iff in Ht. destruct Ht. econstructor; eauto.
      + exists D, true. split; [|split].
        * apply t_perm with (t := t); auto.
        * exact I.
        * discriminate.
    - destruct (inv_q _ _ _ HS) as (h' & -> & HK).
      destruct (IHrun1 S _ (conform q)) as (E1 & S1 & D1 & t1 & T1 & I1 & V1).
      assert (S2 : sound (store s1 q {| c_val := w; c_good := true; c_idx := d0 |})).
      { apply sound_store; [exact S1|]. split.
        - intros P; congruence.
        - intros _ _. exists D1, t1. rewrite E1. split; auto. }
      destruct (IHrun2 S2 _ (HK _)) as (E & S' & D & t & T & I & Hv).
      simpl in E, T, Hv. rewrite E1 in E, T, Hv.
      split; [exact E|]. split; [exact S'|].
      destruct (safe q) eqn:Q.
      + exists (D1 ++ D), (t1 || t). split; [|split].
        * constructor; auto.
        * apply incl_app; intros x Hx; [apply I1 in Hx | apply I in Hx];
            rewrite !in_app_iff in *; tauto.
        * intro Ht. apply orb_false_iff in Ht. destruct Ht. econstructor; eauto.
      + exists D, true. split; [|split].
        * apply t_perm with (t := t); auto.
        * intros x Hx. apply I in Hx. rewrite !in_app_iff in *. tauto.
        * discriminate.
  Qed.

  Lemma update_sound s p v s' :
    update permanent switch s p v s' -> allowed sel switch selectors frozen (par s) p v -> sound s -> sound s'.
  Proof.
    intros U [NF AS] S. destruct U as [|N]; [exact S|].
    intros q c. simpl. intro H.
    destruct (cache s q) as [c0|] eqn:C0; [|discriminate].
    pose proof (S q c0 C0) as [C P]. unfold touch in H.
    assert (OK : forall x, x <> p -> put (par s) p v x = par s x).
    { intros x Hx. unfold put. now rewrite (proj2 (String.eqb_neq x p) Hx). }
    destruct (mem q permanent) eqn:MP.
    - injection H as <-. split; [intros; congruence|].
      intros _ Q. destruct (P eq_refl Q) as (d0 & t0 & T0 & V0).
      assert (D : forall x, In x d0 -> par s x = put (par s) p v x).
      { intros x Hx. symmetry; apply OK. intros ->. apply NF. eapply safe_frozen; eauto. }
      assert (T1 : trace (put (par s) p v) (shape q) d0 t0).
      { eapply trace_move; eauto. split.
        - intros x Hs Hn. destruct (string_dec x p) as [->|Hx].
          + unfold put. rewrite String.eqb_refl. symmetry. now apply AS.
          + now rewrite OK.
        - intros x _ Hx. now rewrite <- D. }
      exists d0, t0. split; [exact T1|].
      intro Ht. eapply value_move; eauto.
    - assert (K : sound_cell (put (par s) p v) q c).
      { split; [|intros; congruence]. intros _.
        destruct (C eq_refl) as (e0 & d0 & t0 & T0 & I0 & A0 & V0).
        assert (AP : agree e0 (put (par s) p v) d0 \/ (In p switch /\ In p d0)).
        { destruct (in_dec string_dec p switch) as [Is|Ns];
            [destruct (in_dec string_dec p d0) as [Id|Nd]; [right; auto|]|]; left; split.
          - intros x Hs Hn. rewrite OK by (intros ->; contradiction). now apply (proj1 A0).
          - intros x Hs Hd. rewrite OK by (intros ->; contradiction). now apply (proj2 A0).
          - intros x Hs Hn. destruct (string_dec x p) as [->|Hx].
            + unfold put. rewrite String.eqb_refl. rewrite (AS Hs Hn). now apply (proj1 A0).
            + rewrite OK by exact Hx. now apply (proj1 A0).
          - intros x Hs Hd. rewrite OK by (intros ->; contradiction). now apply (proj2 A0). }
        assert (PI : In p d0 -> In p (c_idx c0)).
        { intro Hd. apply I0 in Hd. apply in_app_iff in Hd. tauto. }
        destruct (mem p (c_idx c0)) eqn:MI.
        - destruct (mem p switch) eqn:MS; [discriminate|]. injection H as <-.
          destruct AP as [AP|[Is _]].
          2:{ apply mem_not in MS. contradiction. }
          exists e0, d0, t0. repeat split; auto; try apply AP. discriminate.
        - injection H as <-.
          assert (Nd : ~ In p d0) by (intro Hd; apply PI in Hd; apply mem_not in MI; contradiction).
          destruct AP as [AP|[_ Id]]; [|contradiction].
          exists e0, d0, t0. repeat split; auto; try apply AP.
          intros G Ht. eapply value_move; eauto.
          + eapply trace_move; eauto.
          + intros x Hx. symmetry. apply OK. intros ->. contradiction. }
      destruct (mem p (c_idx c0)) eqn:MI.
      + destruct (mem p switch) eqn:MS; [discriminate|]. injection H as <-. exact K.
      + injection H as <-. exact K.
  Qed.

  Notation reached := (session sel code permanent switch selectors frozen).

  Lemma query_shape q : has_shape sel (RQ q Ret) (SQ q SRet).
  Proof. constructor. intro v. constructor. Qed.

  Lemma reached_sound e s : reached e s -> sound s.
  Proof.
    induction 1.
    - apply sound_fresh.
    - destruct H0 as [d R]. eapply run_sound in R; eauto using query_shape. tauto.
    - eapply update_sound; eauto.
  Qed.

  Theorem read_value e s q v s' d :
    reached e s -> read code permanent s q v s' ->
    trace (par s) (SQ q SRet) d false -> value (par s) (RQ q Ret) v.
  Proof.
    intros R [d' H] T. apply reached_sound in R.
    eapply run_sound in H; eauto using query_shape.
    destruct H as (_ & _ & D & t & T' & _ & Hv).
    destruct (trace_det _ _ _ _ T _ _ T') as [_ <-]. auto.
  Qed.

  Theorem read_fresh e s q v s' d :
    reached e s -> read code permanent s q v s' ->
    trace (par s) (SQ q SRet) d false ->
    forall v' s'', read code permanent (fresh (par s)) q v' s'' -> v' = v.
  Proof.
    intros R H T v' s'' H'.
    pose proof (read_value _ _ _ _ _ _ R H T) as A.
    pose proof (read_value (par s) (fresh (par s)) q v' s'' d (s_new _ _ _ _ _ _ (par s)) H' T) as B.
    exact (value_det _ _ _ B _ A).
  Qed.

  Lemma reached_par_frozen e s : reached e s -> forall p, In p frozen -> par s p = e p.
  Proof.
    induction 1; intros x Hx.
    - reflexivity.
    - destruct H0 as [d R]. rewrite <- (IHsession x Hx).
      eapply run_sound in R; eauto using query_shape, reached_sound. destruct R as [-> _]. reflexivity.
    - rewrite <- (IHsession x Hx). destruct H1; [reflexivity|]. simpl. unfold put.
      destruct (String.eqb x p) eqn:E; [|reflexivity].
      apply String.eqb_eq in E; subst. destruct H0. contradiction.
  Qed.
End Facts.

(** ** Reads always end when no quantity depends on itself *)
Section Total.
  Variable V : Type.
  Variable sel : string -> V -> string.
  Variable code : string -> prog V.
  Variable shape : string -> sh.
  Variable permanent : list string.
  Variable rank : string -> nat.
  Hypothesis conform : forall q, has_shape sel (code q) (shape q).

  Fixpoint below (n : nat) (s : sh) : Prop :=
    match s with
    | SRet => True
    | SP _ s => below n s
    | SQ q s => rank q < n /\ below n s
    | SIf _ _ a b => below n a /\ below n b
    end.
  Hypothesis ranked : forall q, below (rank q) (shape q).

  Lemma run_total n : forall c h, has_shape sel c h -> below n h ->
    forall s, exists v d s', run code permanent s c v d s'.
  Proof.
    induction n as [n IH] using (well_founded_induction lt_wf).
    assert (RC : forall q, rank q < n -> forall s, exists v d s', run code permanent s (code q) v d s')
      by (intros q Hq; apply (IH (rank q) Hq _ (shape q)); auto).
    intros c h HS. induction HS as [v|p k h' _ IHk|q k h' _ IHk|p vs k a b _ IHk]; simpl; intros B s.
    - exists v, [], s. constructor.
    - destruct (IHk (par s p) B s) as (v & d & s' & R). do 3 eexists. constructor; eauto.
    - destruct B as [Hq B]. destruct (mem q permanent) eqn:M, (cache s q) as [c|] eqn:C.
      + destruct (IHk (c_val c) B s) as (v & d & s' & R). do 3 eexists. eapply run_kept; eauto.
      + destruct (RC q Hq s) as (w & d0 & s1 & R0).
        destruct (IHk w B (store s1 q {| c_val := w; c_good := true; c_idx := d0 |})) as (v & d & s' & R).
        do 3 eexists. eapply run_keep; eauto.
      + destruct (c_good c) eqn:G.
        * destruct (IHk (c_val c) B s) as (v & d & s' & R). do 3 eexists. eapply run_hit; eauto.
        * destruct (RC q Hq s) as (w & d0 & s1 & R0).
          destruct (IHk w B (store s1 q {| c_val := w; c_good := true; c_idx := c_idx c |})) as (v & d & s' & R).
          do 3 eexists. eapply run_again; eauto. left. apply incl_refl.
      + destruct (RC q Hq s) as (w & d0 & s1 & R0).
        destruct (IHk w B (store s1 q {| c_val := w; c_good := true; c_idx := d0 |})) as (v & d & s' & R).
        do 3 eexists. eapply run_first; eauto.
    - destruct B as [Ba Bb]. destruct (IHk (par s p)) with (s := s) as (v & d & s' & R).
      + destruct (mem (sel p (par s p)) vs); assumption.
      + do 3 eexists. constructor; eauto.
  Qed.

  Theorem read_total s q : exists v s', read code permanent s q v s'.
  Proof.
    destruct (run_total (S (rank q)) (RQ q Ret) (SQ q SRet)) with (s := s) as (v & d & s' & R).
    - constructor. intro v. constructor.
    - simpl. split; [lia|exact I].
    - exists v, s', d. exact R.
  Qed.
End Total.

(** ** The executable machine agrees *)
Lemma exec_run V code permanent n : forall s (c : prog V) v d s',
  exec code permanent n s c = Some (v, d, s') -> run code permanent s c v d s'.
Proof.
  induction n as [|n IH]; intros s c v d s' H; [discriminate|].
  destruct c as [x|p k|q k]; simpl in H.
  - injection H as <- <- <-. constructor.
  - destruct (exec code permanent n s (k (par s p))) as [[[v1 d1] s1]|] eqn:E; [|discriminate].
    injection H as <- <- <-. constructor. auto.
  - destruct (cache s q) as [c|] eqn:C.
    + destruct (mem q permanent) eqn:M; [eapply run_kept; eauto|].
      destruct (c_good c) eqn:G.
      * destruct (exec code permanent n s (k (c_val c))) as [[[v1 d1] s1]|] eqn:E; [|discriminate].
        injection H as <- <- <-. eapply run_hit; eauto.
      * destruct (exec code permanent n s (code q)) as [[[w d0] s1]|] eqn:E; [|discriminate].
        destruct (exec code permanent n _ (k w)) as [[[v1 d1] s2]|] eqn:E2; [|discriminate].
        injection H as <- <- <-. eapply run_again; eauto. left; apply incl_refl.
    + destruct (exec code permanent n s (code q)) as [[[w d0] s1]|] eqn:E; [|discriminate].
      destruct (exec code permanent n _ (k w)) as [[[v1 d1] s2]|] eqn:E2; [|discriminate].
      injection H as <- <- <-.
      destruct (mem q permanent) eqn:M; [eapply run_keep|eapply run_first]; eauto.
Qed.

(** A computation with a given shape: it adds up everything it reads. *)
Fixpoint adder (sel : string -> nat -> string) (h : sh) (acc : nat) : prog nat :=
  match h with
  | SRet => Ret acc
  | SP p h => RP p (fun v => adder sel h (acc + v))
  | SQ q h => RQ q (fun v => adder sel h (acc + v))
  | SIf p vs a b =>
      RP p (fun v => if mem (sel p v) vs then adder sel a (acc + v) else adder sel b (acc + v))
  end.
Lemma adder_shape sel h : forall acc, has_shape sel (adder sel h acc) h.
Proof.
  induction h; intro acc; simpl; constructor; intro v; auto.
  destruct (mem (sel p v) vs); auto.
Qed.
