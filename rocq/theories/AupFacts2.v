(** Lemmas about add_and_upsample.py: the statements of a run, and which of them see which. *)
From Coq Require Import ZArith Lia Lra.
From Verif Require Import Base Interp FftModel RsModel PipeModel PipeFacts OptModel ChainModel PredModel PredSpec AupModel AupSpec AupFacts.
Open Scope string_scope.

(** A statement that reads some sections and writes one; [j_try]: its failure is dropped. *)
Record job := { j_try : bool; j_out : string; j_ins : list string; j_val : dblock -> res (list (list R)) }.
Section Jobs.
  Variable over : bool.
  Variables ze ke : list R.
  Definition do_job (j : job) (b : dblock) : dblock * res unit :=
    let r := store over b (j_out j) ze ke (j_val j b) in if j_try j then (fst r, Ok tt) else r.
  Definition local (j : job) : Prop := forall b1 b2, (forall s n, In s (j_ins j) -> b1 s n = b2 s n) -> j_val j b1 = j_val j b2.
  Definition axis (n : string) : Prop := n = "z" \/ n = "k_h" \/ n = "p_k".

  Lemma put_frame (b : dblock) s z k p s' n : s <> s' \/ ~ axis n -> put_axes_table b s "z" z "k_h" k "p_k" p s' n = b s' n.
  Proof.
    intros H. unfold put_axes_table, bput, axis in *.
    destruct (String.eqb_spec s s') as [E|E]; [|reflexivity]. destruct H as [H|H]; [contradiction|].
    destruct (String.eqb_spec "p_k" n); [subst; exfalso; tauto|]. destruct (String.eqb_spec "k_h" n); [subst; exfalso; tauto|].
    destruct (String.eqb_spec "z" n); [subst; exfalso; tauto|]. reflexivity.
  Qed.
  Lemma do_frame j b s n : j_out j <> s \/ ~ axis n -> fst (do_job j b) s n = b s n.
  Proof.
    intros H. unfold do_job, store. destruct (j_val j b) as [t|e]; [|now destruct (j_try j)]. unfold put_grid.
    destruct over; [destruct (j_try j); now apply put_frame|]. destruct (b (j_out j) "p_k"); destruct (j_try j); try reflexivity; now apply put_frame.
  Qed.
  Lemma turn_frame J : forall b s n, (forall j, In j J -> j_out j <> s) \/ ~ axis n -> fst (in_turn (map do_job J) b) s n = b s n.
  Proof.
    induction J as [|j J IH]; intros b s n H; [reflexivity|]. cbn [map in_turn]. unfold then_.
    destruct (snd (do_job j b)) as [u|e].
    - rewrite IH by (destruct H as [H|H]; [left; intros; apply H; now right|now right]). apply do_frame. destruct H as [H|H]; [left; apply H; now left|now right].
    - cbn [fst]. apply do_frame. destruct H as [H|H]; [left; apply H; now left|now right].
  Qed.
  Lemma turn_app J1 J2 b : in_turn (J1 ++ J2)%list b = then_ (in_turn J1 b) (in_turn J2).
  Proof.
    revert b. induction J1 as [|f J IH]; intros b; [reflexivity|]. cbn [app in_turn]. unfold then_ at 1 3.
    destruct (snd (f b)) as [u|e]; [apply IH|reflexivity].
  Qed.
  Lemma then_ok r k b' : then_ r k = (b', Ok tt) -> exists b1, r = (b1, Ok tt) /\ k b1 = (b', Ok tt).
  Proof. unfold then_. destruct r as [b1 [[]|e]]; cbn; [|discriminate]. intros H. now exists b1. Qed.

  Lemma put_values (b : dblock) s z k p : let b' := put_axes_table b s "z" z "k_h" k "p_k" p in
    b' s "z" = Some (BArr z) /\ b' s "k_h" = Some (BArr k) /\ b' s "p_k" = Some (BTab p).
  Proof. unfold put_axes_table, bput. rewrite !String.eqb_refl. cbn. repeat split. Qed.
  Lemma do_ok j b b1 : j_try j = false -> do_job j b = (b1, Ok tt) ->
    exists t, j_val j b = Ok t /\ b1 = put_axes_table b (j_out j) "z" ze "k_h" ke "p_k" t.
  Proof.
    unfold do_job, store. intros -> H. destruct (j_val j b) as [t|e]; [|discriminate]. exists t. split; [reflexivity|]. unfold put_grid in H.
    destruct over; [now injection H as <-|]. destruct (b (j_out j) "p_k"); [discriminate|]. now injection H as <-.
  Qed.
  Definition independent (J : list job) : Prop := NoDup (map j_out J) /\ (forall j, In j J -> local j) /\
    forall j1 j2, In j1 J -> In j2 J -> In (j_out j1) (j_ins j2) -> j_out j1 = j_out j2.
  (** Each statement works on the block as it was before the first. *)
  Lemma before J1 j J2 b : independent (J1 ++ j :: J2) -> j_val j (fst (in_turn (map do_job J1) b)) = j_val j b.
  Proof.
    intros (ND & L & I). apply (L j); [apply in_or_app; right; now left|]. intros s n Hs. apply turn_frame. left. intros j1 H1 E. subst s.
    assert (X : j_out j1 = j_out j) by (apply I; [apply in_or_app; now left|apply in_or_app; right; now left|exact Hs]).
    rewrite map_app in ND. cbn [map] in ND. apply NoDup_remove_2 in ND. apply ND, in_or_app. left. rewrite <- X. now apply in_map.
  Qed.
  Lemma job_values J j b b' : independent J -> In j J -> in_turn (map do_job J) b = (b', Ok tt) -> j_try j = false \/ over = true ->
    (j_try j = false -> exists t, j_val j b = Ok t) /\
    forall t, j_val j b = Ok t -> b' (j_out j) "z" = Some (BArr ze) /\ b' (j_out j) "k_h" = Some (BArr ke) /\ b' (j_out j) "p_k" = Some (BTab t).
  Proof.
    intros Ind Hj H T. destruct (in_split j J Hj) as (J1 & J2 & ->). rewrite map_app in H. cbn [map] in H. rewrite turn_app in H.
    apply then_ok in H. destruct H as (b1 & H1 & H). cbn [in_turn] in H. apply then_ok in H. destruct H as (b2 & H2 & H).
    pose proof (before J1 j J2 b Ind) as V. rewrite H1 in V. cbn [fst] in V.
    assert (F : forall n, b' (j_out j) n = b2 (j_out j) n).
    { intro n. replace b' with (fst (in_turn (map do_job J2) b2)) by now rewrite H. apply turn_frame. left. intros j2 I2 E.
      destruct Ind as (ND & _). rewrite map_app in ND. cbn [map] in ND. apply NoDup_remove_2 in ND. apply ND, in_or_app. right. rewrite <- E. now apply in_map. }
    split.
    - intros Tj. destruct (do_ok j b1 b2 Tj H2) as (t & Vt & _). exists t. now rewrite <- V.
    - intros t Vt. rewrite !F. rewrite <- V in Vt. assert (E : b2 = put_axes_table b1 (j_out j) "z" ze "k_h" ke "p_k" t).
      { destruct (j_try j) eqn:Tj.
        - destruct T as [T|T]; [discriminate|]. unfold do_job, store, put_grid in H2. rewrite Tj, Vt, T in H2. now injection H2 as <-.
        - destruct (do_ok j b1 b2 Tj H2) as (t' & Vt' & ->). rewrite Vt in Vt'. now injection Vt' as ->. }
      rewrite E. apply put_values.
  Qed.
  Lemma jobs_run J : forall b, independent J -> (forall j, In j J -> j_try j = false -> exists t, j_val j b = Ok t) ->
    (over = true \/ forall j, In j J -> b (j_out j) "p_k" = None) -> exists b', in_turn (map do_job J) b = (b', Ok tt).
  Proof.
    induction J as [|j J IH]; intros b Ind V O; [now exists b|]. cbn [map in_turn].
    assert (S1 : snd (do_job j b) = Ok tt).
    { unfold do_job. destruct (j_try j) eqn:Tj; [reflexivity|]. destruct (V j (or_introl eq_refl) Tj) as (t & Et). unfold store, put_grid. rewrite Et.
      destruct O as [->|O]; [reflexivity|]. destruct over; [reflexivity|]. rewrite (O j (or_introl eq_refl)). reflexivity. }
    unfold then_. rewrite S1. destruct Ind as (ND & L & I). cbn [map] in ND. inversion ND as [|? ? N1 N2]; subst.
    assert (D : forall j', In j' J -> j_out j <> j_out j') by (intros j' H E; apply N1; rewrite E; now apply in_map).
    apply IH.
    - split; [exact N2|]. split; [intros; apply L; now right|]. intros; apply I; [now right|now right|assumption].
    - intros j' H' T'. destruct (V j' (or_intror H') T') as (t & Et). exists t. rewrite <- Et. apply (L j' (or_intror H')). intros s n Hs.
      apply do_frame. left. intros E. subst s. apply (D j' H'). apply I; [now left|now right|exact Hs].
    - destruct O as [O|O]; [now left|]. right. intros j' H'. rewrite do_frame by (left; now apply D). apply O. now right.
  Qed.
  (** Where put_grid refuses, a table in the way ends the run. *)
  Lemma in_the_way J j b : over = false -> In j J -> j_try j = false -> b (j_out j) "p_k" <> None -> exists e, snd (in_turn (map do_job J) b) = Err e.
  Proof.
    intros O. revert b. induction J as [|j0 J IH]; intros b Hj Tj P; [contradiction|]. cbn [map in_turn]. unfold then_.
    destruct (snd (do_job j0 b)) as [u|e] eqn:S0; [|exists e; reflexivity].
    destruct Hj as [->|Hj].
    - exfalso. unfold do_job in S0. rewrite Tj in S0. unfold store, put_grid in S0. rewrite O in S0. destruct (j_val j b); [|discriminate].
      destruct (b (j_out j) "p_k"); [discriminate|contradiction].
    - apply IH; [exact Hj|exact Tj|]. destruct (string_dec (j_out j0) (j_out j)) as [E|E].
      + unfold do_job, store, put_grid. rewrite O. destruct (j_val j0 b) as [t|e]; [|now destruct (j_try j0)]. rewrite E.
        destruct (b (j_out j) "p_k") as [w|] eqn:W; [|contradiction]. destruct (j_try j0); cbn [fst]; rewrite W; discriminate.
      + rewrite do_frame by (now left). exact P.
  Qed.
End Jobs.
