(** Block bookkeeping of predict_observable.py. *)
From Coq Require Import ZArith Ascii.
From Verif Require Import Base Spec Quad Interp QuadFacts InterpFacts FftModel RsModel PipeModel PipeSpec PipeFacts OptModel ChainModel ChainFacts PredModel PredSpec.
Open Scope R_scope.

(** ** Names *)
Lemma digit_not a r n : ~ In a digits -> dec n <> String a r.
Proof.
  intros H E. assert (F := uint_digits (Nat.to_uint n)). unfold dec in E. rewrite E in F. cbn in F. inversion F; subst. contradiction.
Qed.
Lemma obs_not n (r : string) c : ~ In c digits -> ("obs_" ++ dec n)%string <> ("obs_" ++ String c r)%string.
Proof. intros H E. cbn in E. injection E as E. exact (digit_not c r n H E). Qed.
(** The names bin number [i] writes. *)
Definition names (i : nat) : list string := [bin_key i; obs_key "obs" (dec i); obs_key "mass" (dec i)].
Lemma names_sep i j n : In n (names i) -> In n (names j) -> i = j.
Proof.
  unfold names, obs_key, bin_key. cbn [In]. intros [<-|[<-|[<-|[]]]] [E|[E|[E|[]]]]; cbn in E; try discriminate;
    injection E as E; symmetry; now apply dec_inj.
Qed.
(** What pred_bin reads is not what earlier bins wrote. *)
Lemma names_read i n (s : string) : In n (names i) ->
  n <> obs_key "obs_val" s /\ n <> obs_key "z_bin" s /\ n <> obs_key "obs_func" s /\ n <> "z"%string.
Proof.
  unfold names, obs_key, bin_key. cbn [In]. intros [<-|[<-|[<-|[]]]]; (repeat split); try discriminate.
  - apply (obs_not i ("al_" ++ s) "v"%char). cbn. intuition discriminate.
  - apply (obs_not i ("unc_" ++ s) "f"%char). cbn. intuition discriminate.
Qed.

(** ** The loop *)
(** [b2] is [b] with names of bins 1..k added to [out]. *)
Definition grown (out : string) (k : nat) (b b2 : dblock) : Prop :=
  forall s n, b2 s n = b s n \/ (s = out /\ b s n = None /\ exists i, (1 <= i <= k)%nat /\ In n (names i)).
Lemma grown_refl out b : grown out 0 b b.
Proof. intros s n. now left. Qed.
Lemma grown_mono out k k' b b2 : (k <= k')%nat -> grown out k b b2 -> grown out k' b b2.
Proof. intros L G s n. destruct (G s n) as [E|(E & F & i & I & J)]; [now left|right]. repeat split; auto. exists i. split; [lia|exact J]. Qed.
Lemma grown_put out k i b b2 n v : (1 <= i <= k)%nat -> In n (names i) -> b2 out n = None -> grown out k b b2 -> grown out k b (bput b2 out n v).
Proof.
  intros L I N G s m. unfold bput. destruct (String.eqb_spec out s) as [<-|D]; [|apply G]. destruct (String.eqb_spec n m) as [<-|D]; [|apply G]. cbn.
  right. split; [reflexivity|]. split; [|exists i; now split]. destruct (G out n) as [E|(_ & E & _)]; [congruence|exact E].
Qed.
Lemma grown_read out k b b2 s n : grown out k b b2 -> (forall i, (1 <= i <= k)%nat -> ~ In n (names i)) -> b2 s n = b s n.
Proof. intros G H. destruct (G s n) as [E|(_ & _ & i & I & J)]; [exact E|]. exfalso. exact (H i I J). Qed.
Lemma grown_kept out k b b2 s n v : grown out k b b2 -> b s n = Some v -> b2 s n = Some v.
Proof. intros G H. destruct (G s n) as [E|(_ & E & _)]; congruence. Qed.

Lemma array_eq b b2 s n : b2 s n = b s n -> array b2 s n = array b s n.
Proof. intro E. unfold array. now rewrite E. Qed.
Lemma pred_bin_grown zd run c out i b b2 : grown out i b b2 -> pred_bin zd run c b2 i = pred_bin zd run c b i.
Proof.
  intro G.
  assert (K : forall s sec, b2 sec (obs_key "obs_val" s) = b sec (obs_key "obs_val" s) /\
      b2 sec (obs_key "z_bin" s) = b sec (obs_key "z_bin" s) /\ b2 sec (obs_key "obs_func" s) = b sec (obs_key "obs_func" s) /\
      b2 sec "z"%string = b sec "z"%string).
  { intros s sec. repeat split; apply (grown_read _ _ _ _ _ _ G); intros j _ I; destruct (names_read j _ s I) as (A & B & C & D); congruence. }
  assert (Z : forall sec, b2 sec (bin_key (i + 1)) = b sec (bin_key (i + 1))).
  { intro sec. apply (grown_read _ _ _ _ _ _ G). intros j L I. assert (j = (i + 1)%nat); [|lia]. apply (names_sep _ _ _ I). now left. }
  assert (E1 : forall sec s, load_obs b2 sec s = load_obs b sec s).
  { intros sec s. destruct (K s sec) as (A & B & C & _). unfold load_obs. rewrite (array_eq _ _ _ _ A), (array_eq _ _ _ _ C), B, C. reflexivity. }
  assert (E2 : forall sec z, load_redshift b2 sec (i + 1) z = load_redshift b sec (i + 1) z).
  { intros sec z. destruct (K ""%string sec) as (_ & _ & _ & D). unfold load_redshift. rewrite (array_eq _ _ _ _ D), (array_eq _ _ _ _ (Z sec)). reflexivity. }
  unfold pred_bin, raw_bin. rewrite E1. destruct (load_obs b (p_in c) _) as [it|e]; [|reflexivity]. cbn [bind]. destruct (p_weighted c).
  - destruct (first_row it) as [f|e]; [|reflexivity]. cbn [bind]. destruct (binned zd c i f) as [v|e]; [|reflexivity]. cbn [bind].
    destruct it as [g|z l]; [reflexivity|]. destruct (need_sample c) as [s|e]; [|reflexivity]. cbn [bind]. now rewrite E2.
  - destruct it as [g|z l]; [reflexivity|]. destruct (need_sample c) as [s|e]; [|reflexivity]. cbn [bind]. now rewrite E2.
Qed.

Lemma put_new_ok b s n v b' u : put_new b s n v = (b', Ok u) -> b s n = None /\ b' = bput b s n v.
Proof. unfold put_new. destruct (b s n); intro H; inversion H; auto. Qed.
Lemma put_new_fresh b s n v : b s n = None -> put_new b s n v = (bput b s n v, Ok tt).
Proof. unfold put_new. now intros ->. Qed.
Lemma then_ok r k b' u : then_ r k = (b', Ok u) -> exists b1 u1, r = (b1, Ok u1) /\ k b1 = (b', Ok u).
Proof. unfold then_. destruct r as [b1 [u1|e]]; cbn; intro H; [eauto|discriminate]. Qed.

Lemma key_bin i : bin_key i = ("bin_" ++ dec i)%string. Proof. reflexivity. Qed.

(** A run of the loop that ends: every bin is predicted from the block the call began with. *)
Lemma loop_runs zd run c b : forall m k b2 b', grown (p_out c) k b b2 -> pred_loop zd run c (seq k m) b2 = (b', Ok tt) ->
  grown (p_out c) (k + m) b b' /\ (forall s n v, b2 s n = Some v -> b' s n = Some v) /\
  forall i, (k <= i < k + m)%nat -> exists v, pred_bin zd run c b i = Ok v /\ written b' (p_out c) (i + 1) v (nth i (p_obs c) []).
Proof.
  induction m as [|m IH]; intros k b2 b' G H.
  - cbn in H. inversion H; subst. rewrite Nat.add_0_r. repeat split; auto. intros i Hi; lia.
  - cbn [seq pred_loop] in H. rewrite (pred_bin_grown zd run c _ _ _ _ G) in H. destruct (pred_bin zd run c b k) as [v|e] eqn:E; [|discriminate].
    apply then_ok in H as (b3 & u3 & H3 & H). apply then_ok in H as (b4 & u4 & H4 & H). apply then_ok in H as (b5 & u5 & H5 & H).
    apply put_new_ok in H3 as [F3 ->]. apply put_new_ok in H4 as [F4 ->]. apply put_new_ok in H5 as [F5 ->].
    set (c1 := bput b2 (p_out c) (bin_key (k + 1)) (BArr v)) in *.
    set (c2 := bput c1 (p_out c) (obs_key "obs" (dec (k + 1))) (BArr (nth k (p_obs c) []))) in *.
    set (c3 := bput c2 (p_out c) (obs_key "mass" (dec (k + 1))) (BArr (nth k (p_obs c) []))) in *.
    assert (G3 : grown (p_out c) (S k) b c3).
    { apply (grown_put _ _ (k + 1)); [lia|right; right; now left|exact F5|]. apply (grown_put _ _ (k + 1)); [lia|right; now left|exact F4|].
      apply (grown_put _ _ (k + 1)); [lia|now left|exact F3|]. apply (grown_mono _ k); [lia|exact G]. }
    destruct (IH (S k) c3 b' G3 H) as (A & B & C). replace (k + S m)%nat with (S k + m)%nat by lia. split; [exact A|].
    assert (B' : forall s n w, b2 s n = Some w -> c3 s n = Some w).
    { intros s n w Hw. unfold c3. rewrite bput_other. 2:{ destruct (string_dec s (p_out c)) as [->|D]; [|now left]. right. intros ->.
        unfold c2 in F5. rewrite bput_other in F5 by (right; discriminate). unfold c1 in F5. rewrite bput_other in F5 by (right; discriminate). congruence. }
      unfold c2. rewrite bput_other. 2:{ destruct (string_dec s (p_out c)) as [->|D]; [|now left]. right. intros ->.
        unfold c1 in F4. rewrite bput_other in F4 by (right; discriminate). congruence. }
      unfold c1. rewrite bput_other; [exact Hw|]. destruct (string_dec s (p_out c)) as [->|D]; [|now left]. right. intros ->. congruence. }
    split; [intros s n w Hw; apply B, B', Hw|].
    intros i Hi. destruct (Nat.eq_dec i k) as [->|N]; [|apply C; lia]. exists v. split; [exact E|]. repeat split; apply B.
    + unfold c3, c2. rewrite !bput_other by (right; discriminate). apply bput_same.
    + unfold c3. rewrite bput_other by (right; discriminate). apply bput_same.
    + apply bput_same.
Qed.
(** And the loop ends when every bin can be predicted and no name is taken. *)
Lemma loop_ends zd run c b : forall m k b2, grown (p_out c) k b b2 ->
  (forall i, (k <= i < k + m)%nat -> exists v, pred_bin zd run c b i = Ok v) ->
  (forall i n, (k < i <= k + m)%nat -> In n (names i) -> b2 (p_out c) n = None) ->
  exists b', pred_loop zd run c (seq k m) b2 = (b', Ok tt).
Proof.
  induction m as [|m IH]; intros k b2 G P F.
  - exists b2. reflexivity.
  - cbn [seq pred_loop]. rewrite (pred_bin_grown zd run c _ _ _ _ G). destruct (P k ltac:(lia)) as [v ->].
    assert (F3 : b2 (p_out c) (bin_key (k + 1)) = None) by (apply (F (k + 1)%nat); [lia|now left]).
    assert (F4 : b2 (p_out c) (obs_key "obs" (dec (k + 1))) = None) by (apply (F (k + 1)%nat); [lia|right; now left]).
    assert (F5 : b2 (p_out c) (obs_key "mass" (dec (k + 1))) = None) by (apply (F (k + 1)%nat); [lia|right; right; now left]).
    set (c1 := bput b2 (p_out c) (bin_key (k + 1)) (BArr v)).
    set (c2 := bput c1 (p_out c) (obs_key "obs" (dec (k + 1))) (BArr (nth k (p_obs c) []))).
    set (c3 := bput c2 (p_out c) (obs_key "mass" (dec (k + 1))) (BArr (nth k (p_obs c) []))).
    assert (E4 : c1 (p_out c) (obs_key "obs" (dec (k + 1))) = None) by (unfold c1; rewrite bput_other by (right; discriminate); exact F4).
    assert (E5 : c2 (p_out c) (obs_key "mass" (dec (k + 1))) = None).
    { unfold c2, c1. rewrite !bput_other by (right; discriminate). exact F5. }
    rewrite put_new_fresh by exact F3. unfold then_ at 1. cbn [fst snd]. fold c1.
    rewrite put_new_fresh by exact E4. unfold then_ at 1. cbn [fst snd]. fold c2.
    rewrite put_new_fresh by exact E5. unfold then_ at 1. cbn [fst snd]. fold c3.
    apply IH.
    + apply (grown_put _ _ (k + 1)); [lia|right; right; now left|exact E5|]. apply (grown_put _ _ (k + 1)); [lia|right; now left|exact E4|].
      apply (grown_put _ _ (k + 1)); [lia|now left|exact F3|]. apply (grown_mono _ k); [lia|exact G].
    + intros i Hi. apply P. lia.
    + intros i n Hi I. assert (D : forall m0, In m0 (names (k + 1)) -> n <> m0).
      { intros m0 Im ->. assert (i = (k + 1)%nat) by (eapply names_sep; eassumption). lia. }
      unfold c3, c2, c1. rewrite !bput_other; [apply (F i); [lia|exact I]| | |]; right; apply D; unfold names; cbn [In]; tauto.
Qed.

(** ** A whole call *)
Definition header_names : list string := ["nbin"; "sample"]%string.
Lemma names_header i n : In n (names i) -> ~ In n header_names.
Proof. unfold names, obs_key, bin_key, header_names. cbn [In]. intros [<-|[<-|[<-|[]]]] [E|[E|[]]]; discriminate. Qed.
Lemma execute_runs zd mk c b b' : pred_execute zd mk c b = (b', Ok tt) ->
  exists run, run_cosmo mk c b = Ok run /\
  (forall i, (i < List.length (p_suffixes c))%nat ->
     exists v, pred_bin zd run c b i = Ok v /\ written b' (p_out c) (i + 1) v (nth i (p_obs c) [])) /\
  b' (p_out c) "nbin"%string = Some (BInt (Z.of_nat (List.length (p_suffixes c)))) /\
  b' (p_out c) "sample"%string = Some (BStr (match p_sample c with Some s => s | None => "None" end)) /\
  (forall s n, (s <> p_out c \/ (~ In n header_names /\ forall i, (1 <= i <= List.length (p_suffixes c))%nat -> ~ In n (names i))) -> b' s n = b s n).
Proof.
  unfold pred_execute. destruct (run_cosmo mk c b) as [run|e]; [|discriminate]. intro H. exists run. split; [reflexivity|].
  apply then_ok in H as (b1 & [] & H1 & H2). apply loop_runs with (b := b) in H1; [|apply grown_refl]. destruct H1 as (G & _ & W). cbn [Nat.add] in G.
  inversion H2; subst b'. clear H2. split; [|split; [|split]].
  - intros i Hi. destruct (W i ltac:(lia)) as (v & E & A & B & C). exists v. split; [exact E|].
    repeat split; rewrite !bput_other by (right; discriminate); assumption.
  - rewrite bput_other by (right; discriminate). apply bput_same.
  - apply bput_same.
  - intros s n D. rewrite !bput_other.
    + destruct D as [D|[_ D]]; [|apply (grown_read _ _ _ _ _ _ G); exact D]. destruct (G s n) as [E|(E & _)]; [exact E|contradiction].
    + destruct D as [D|[D _]]; [now left|right]. intros ->. apply D. cbn; tauto.
    + destruct D as [D|[D _]]; [now left|right]. intros ->. apply D. cbn; tauto.
Qed.
Lemma execute_ends zd mk c b run : run_cosmo mk c b = Ok run -> fresh b (p_out c) (List.length (p_suffixes c)) ->
  (forall i, (i < List.length (p_suffixes c))%nat -> exists v, pred_bin zd run c b i = Ok v) ->
  exists b', pred_execute zd mk c b = (b', Ok tt).
Proof.
  intros R F P. unfold pred_execute. rewrite R. destruct (loop_ends zd run c b (List.length (p_suffixes c)) 0 b (grown_refl _ _)) as [b1 E].
  - intros i Hi. apply P. lia.
  - intros i n Hi I. destruct (F i ltac:(lia)) as (A & B & C). unfold names in I. cbn [In] in I. destruct I as [<-|[<-|[<-|[]]]]; assumption.
  - rewrite E. unfold then_. cbn [fst snd]. eexists. reflexivity.
Qed.
Lemma execute_fails zd mk c b e : (exists run, run_cosmo mk c b = Ok run /\ pred_bin zd run c b 0 = Err e) -> (0 < List.length (p_suffixes c))%nat ->
  pred_execute zd mk c b = (b, Err e).
Proof.
  intros (run & R & E) H. unfold pred_execute. rewrite R. destruct (List.length (p_suffixes c)) as [|n]; [lia|]. cbn [seq pred_loop]. rewrite E. reflexivity.
Qed.
