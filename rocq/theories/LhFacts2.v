(** Lemmas about LhModel: a successful run as one list of writes. *)
From Coq Require Import ZArith Lia Lra.
From Verif Require Import Base Quad Interp FftModel PipeModel PipeSpec PipeFacts HodModel OptModel ChainModel PredModel MiniModel AupModel LiaModel LiaSpec LhModel LhSpec LhFacts.
Open Scope R_scope.

Lemma bind_ok {A B} (m : res A) (k : A -> res B) v : bind m k = Ok v -> exists a, m = Ok a /\ k a = Ok v.
Proof. destruct m as [a|e]; [intros H; now exists a|discriminate]. Qed.

Section Run.
  Variable over : bool.
  Variable c : hconfig.
  Definition agree (b b1 : dblock) : Prop := forall s n, s <> h_section c -> s <> h_obssec c -> b1 s n = b s n.
  Lemma agree_refl b : agree b b. Proof. now intros s n _ _. Qed.
  Lemma agree_trans a b d : agree a b -> agree b d -> agree a d.
  Proof. intros H K s n N M. now rewrite K, H. Qed.
  Definition ours (l : list (string * string * bval)) : Prop := forall s n v, In (s, n, v) l -> s = h_section c \/ s = h_obssec c.
  Lemma ours_agree l b : ours l -> agree b (put_entries l b).
  Proof. intros O s n N M. apply entries_other. intros v I. now destruct (O _ _ _ I). Qed.
  Lemma ours_app l1 l2 : ours l1 -> ours l2 -> ours (l1 ++ l2).
  Proof. intros A B s n v I. apply in_app_or in I. destruct I; [now apply (A s n v)|now apply (B s n v)]. Qed.
  Definition psec (p : lput) : string := match p with Plain s _ _ => s | Grid s _ _ _ _ _ _ => s end.
  Lemma ours_puts l : (forall p, In p l -> psec p = h_section c \/ psec p = h_obssec c) -> ours (flat_map entries l).
  Proof.
    intros H s n v I. apply in_flat_map in I. destruct I as (p & P & I). specialize (H p P). destruct p as [s0 n0 v0|s0 nx x ny y n0 t]; cbn [entries psec] in *.
    - destruct I as [I|[]]. injection I as <- _ _. exact H.
    - destruct I as [I|[I|[I|[]]]]; injection I as <- _ _; exact H.
  Qed.
  Ltac ours_list := apply ours_puts; let p := fresh in let I := fresh in intros p I; repeat (destruct I as [<-|I]; [first [now left|now right]|]); contradiction.
  Hypothesis values_apart : h_values c <> h_section c /\ h_values c <> h_obssec c.
  Hypothesis h_apart : "cosmological_parameters"%string <> h_section c /\ "cosmological_parameters"%string <> h_obssec c.
  Hypothesis bias_apart : "halobias"%string <> h_section c /\ "halobias"%string <> h_obssec c.
  Hypothesis hmf_apart : "hmf"%string <> h_section c /\ "hmf"%string <> h_obssec c.
  Lemma num_agree b b1 s n : agree b b1 -> s <> h_section c /\ s <> h_obssec c -> block_num b1 s n = block_num b s n.
  Proof. intros A [N M]. unfold block_num. now rewrite (A s n N M). Qed.
  Lemma has_agree b b1 s n : agree b b1 -> s <> h_section c /\ s <> h_obssec c -> LiaModel.has_value b1 s n = LiaModel.has_value b s n.
  Proof. intros A [N M]. unfold LiaModel.has_value. now rewrite (A s n N M). Qed.
  Lemma params_agree b b1 nb l : agree b b1 -> lh_params c nb l b1 = lh_params c nb l b.
  Proof. intros A. induction l as [|p l IH]; [reflexivity|]. cbn [lh_params]. now rewrite (has_agree _ _ _ _ A values_apart), (num_agree _ _ _ _ A values_apart), IH. Qed.
  Lemma factor_agree b b1 : agree b b1 -> h_factor c b1 = h_factor c b.
  Proof. intros A. unfold h_factor. now rewrite (num_agree _ _ _ _ A h_apart). Qed.
  Lemma assembly_agree b b1 n : agree b b1 -> lh_assembly c b1 n = lh_assembly c b n.
  Proof. intros A. unfold lh_assembly. now rewrite (has_agree _ _ _ _ A values_apart), (num_agree _ _ _ _ A values_apart). Qed.
  Lemma occupation_agree b b1 i names nb : agree b b1 -> lh_occupation c i names nb b1 = lh_occupation c i names nb b.
  Proof. intros A. unfold lh_occupation. now rewrite (params_agree _ _ _ _ A), (factor_agree _ _ A). Qed.
  Lemma biases_agree b b1 i kw nb : agree b b1 -> lh_biases c i kw nb b1 = lh_biases c i kw nb b.
  Proof.
    intros A. unfold lh_biases, array, table_at. destruct bias_apart as [N M]. now rewrite !(A "halobias"%string _ N M).
  Qed.
  Lemma input_agree b b1 : agree b b1 -> lh_input c b1 = lh_input c b.
  Proof.
    intros A. unfold lh_input, array, table_at. destruct hmf_apart as [N M]. now rewrite !(A "hmf"%string _ N M), !(assembly_agree _ _ _ A).
  Qed.
  Lemma extended_agree b b1 i kw : agree b b1 -> lh_extended c i kw b1 = lh_extended c i kw b.
  Proof. intros A. unfold lh_extended. now rewrite (factor_agree _ _ A). Qed.

  Lemma occupation_ours i names nb b l : lh_occupation c i names nb b = Ok l -> ours (flat_map entries l).
  Proof.
    unfold lh_occupation. intros H. apply bind_ok in H. destruct H as (kw & _ & H). apply bind_ok in H. destruct H as (u1 & _ & H).
    cbv zeta in H. apply bind_ok in H. destruct H as (u2 & _ & H). apply bind_ok in H. destruct H as (fs & F & H). injection H as <-.
    rewrite flat_map_app. apply ours_app; [|ours_list].
    destruct (String.eqb (h_model c) "Cacciato"); [apply bind_ok in F; destruct F as (h & _ & F)|]; injection F as <-; ours_list.
  Qed.
  Lemma biases_ours i kw nb b l : lh_biases c i kw nb b = Ok l -> ours (flat_map entries l).
  Proof.
    unfold lh_biases. destruct (h_bias c); [|intros H; injection H as <-; ours_list]. intros H.
    apply bind_ok in H. destruct H as (z & _ & H). apply bind_ok in H. destruct H as (p & _ & H). apply bind_ok in H. destruct H as (u & _ & H). injection H as <-. ours_list.
  Qed.
  Lemma bin_obs_ours i kw nb : ours (flat_map entries (lh_bin_obs c i kw nb)).
  Proof. unfold lh_bin_obs. destruct (_ && _)%bool; cbv zeta; ours_list. Qed.
  Lemma labels_ours : ours (flat_map entries (lh_labels c)).
  Proof. unfold lh_labels. destruct (h_save c); ours_list. Qed.
  Lemma extended_ours i kw b l : lh_extended c i kw b = Ok l -> ours (flat_map entries l).
  Proof.
    unfold lh_extended. destruct (String.eqb (h_model c) "Cacciato"); [|intros H; injection H as <-; ours_list].
    cbv zeta. intros H. apply bind_ok in H. destruct H as (h & _ & H). injection H as <-.
    rewrite (app_comm_cons _ _ _). rewrite flat_map_app. apply ours_app; [destruct (_ && _)%bool; ours_list|destruct (_ && _)%bool; ours_list].
  Qed.

  (** The writes of a bin. *)
  Definition bin_puts (b : dblock) (i : hinput) (names : list string) (nb : nat) : list lput :=
    match lh_params c nb names b, lh_occupation c i names nb b with
    | Ok kw, Ok l1 => match lh_biases c i kw nb b with Ok l2 => l1 ++ l2 ++ lh_bin_obs c i kw nb | Err _ => [] end
    | _, _ => []
    end.
  Definition bin_entries (b : dblock) (i : hinput) (names : list string) (nb : nat) : list (string * string * bval) := flat_map entries (bin_puts b i names nb).
  Definition bin_reads (b : dblock) (i : hinput) (names : list string) (nb : nat) : Prop :=
    exists kw l1 l2, lh_params c nb names b = Ok kw /\ lh_occupation c i names nb b = Ok l1 /\ lh_biases c i kw nb b = Ok l2.
  Lemma bin_ours b i names nb : ours (bin_entries b i names nb).
  Proof.
    unfold bin_entries, bin_puts. destruct (lh_params c nb names b) as [kw|]; [|now intros s n v []]. destruct (lh_occupation c i names nb b) as [l1|] eqn:E1; [|now intros s n v []].
    destruct (lh_biases c i kw nb b) as [l2|] eqn:E2; [|now intros s n v []]. rewrite !flat_map_app.
    apply ours_app; [exact (occupation_ours _ _ _ _ _ E1)|]. apply ours_app; [exact (biases_ours _ _ _ _ _ E2)|]. apply bin_obs_ours.
  Qed.
  Lemma bin_ok b b1 b2 i names nb : agree b b1 -> lh_bin_execute over c i names nb b1 = (b2, Ok tt) ->
    bin_reads b i names nb /\ b2 = put_entries (bin_entries b i names nb) b1.
  Proof.
    intros A H. unfold lh_bin_execute in H. apply then_ok in H. destruct H as [H1 H2].
    destruct (read_write over (lh_occupation c i names nb) b1) as [b3 r] eqn:E. cbn [fst snd] in *. subst r. apply read_write_ok in E. destruct E as (l1 & E1 & ->).
    rewrite (params_agree _ _ _ _ A) in H2. rewrite (occupation_agree _ _ _ _ _ A) in E1. destruct (lh_params c nb names b) as [kw|e] eqn:P; [|discriminate].
    apply then_ok in H2. destruct H2 as [H2 H3]. destruct (read_write over (lh_biases c i kw nb) _) as [b4 r] eqn:E. cbn [fst snd] in *. subst r. apply read_write_ok in E. destruct E as (l2 & E2 & ->).
    assert (A' : agree b (put_entries (flat_map entries l1) b1)). { apply (agree_trans _ _ _ A). apply ours_agree. exact (occupation_ours _ _ _ _ _ E1). }
    rewrite (biases_agree _ _ _ _ _ A') in E2. apply do_puts_ok in H3. split; [exists kw, l1, l2; auto|].
    unfold bin_entries, bin_puts. rewrite P, E1, E2, !flat_map_app, !entries_app. exact H3.
  Qed.
  Lemma loop_ok i names b : forall l b1 b2, agree b b1 -> in_turn (map (lh_bin_execute over c i names) l) b1 = (b2, Ok tt) ->
    (forall nb, In nb l -> bin_reads b i names nb) /\ b2 = put_entries (flat_map (bin_entries b i names) l) b1.
  Proof.
    induction l as [|nb l IH]; intros b1 b2 A H; [cbn in H; injection H as <-; split; [contradiction|reflexivity]|].
    cbn [map in_turn] in H. apply then_ok in H. destruct H as [H1 H2]. destruct (lh_bin_execute over c i names nb b1) as [b3 r] eqn:E. cbn [fst snd] in *. subst r.
    destruct (bin_ok _ _ _ _ _ _ A E) as [R ->]. assert (A' : agree b (put_entries (bin_entries b i names nb) b1)) by (apply (agree_trans _ _ _ A), ours_agree, bin_ours).
    destruct (IH _ _ A' H2) as [K ->]. split; [intros k [<-|I]; [exact R|now apply K]|]. cbn [flat_map]. now rewrite entries_app.
  Qed.
  Definition head_puts : list lput := [Plain (h_section c) "nbins" (BInt (Z.of_nat (h_nbins c))); Plain (h_section c) "observable_z" (BInt (if h_obsz c then 1 else 0))].
  Lemma head_ours : ours (flat_map entries head_puts).
  Proof. ours_list. Qed.
  (** Everything a successful run writes. *)
  Definition all_entries (b : dblock) (i : hinput) (names : list string) (ext : list lput) : list (string * string * bval) :=
    (flat_map entries head_puts ++ flat_map (bin_entries b i names) (seq 0 (h_nbins c)) ++ flat_map entries (lh_labels c) ++ flat_map entries ext)%list.
  Lemma run_ok b b' : lh_execute over c b = (b', Ok tt) ->
    exists names i kw ext, legacy_parameters (h_model c) = Some names /\ lh_input c b = Ok i /\ (forall nb, (nb < h_nbins c)%nat -> bin_reads b i names nb) /\
      lh_params c (h_nbins c - 1) names b = Ok kw /\ lh_extended c i kw b = Ok ext /\ b' = put_entries (all_entries b i names ext) b.
  Proof.
    unfold lh_execute. destruct (legacy_parameters (h_model c)) as [names|] eqn:M; [|discriminate]. intros H. apply then_ok in H. destruct H as [H1 H2].
    fold head_puts in *. destruct (do_puts over head_puts b) as [b1 r] eqn:E. cbn [fst snd] in *. subst r. apply do_puts_ok in E. subst b1.
    assert (A : agree b (put_entries (flat_map entries head_puts) b)) by (apply ours_agree, head_ours).
    rewrite (input_agree _ _ A) in H2. destruct (lh_input c b) as [i|e] eqn:I; [|discriminate]. apply then_ok in H2. destruct H2 as [H2 H3].
    destruct (in_turn _ _) as [b2 r] eqn:E in H2, H3. cbn [fst snd] in *. subst r. destruct (loop_ok _ _ _ _ _ _ A E) as [R ->].
    apply then_ok in H3. destruct H3 as [H3 H4]. destruct (do_puts over (lh_labels c) _) as [b3 r] eqn:E' in H3, H4. cbn [fst snd] in *. subst r. apply do_puts_ok in E'. subst b3.
    rewrite (params_agree _ _ _ _ A) in H4. destruct (lh_params c (h_nbins c - 1) names b) as [kw|e] eqn:P; [|discriminate]. apply read_write_ok in H4. destruct H4 as (ext & X & ->).
    rewrite extended_agree with (b := b) in X.
    - exists names, i, kw, ext. split; [reflexivity|]. split; [reflexivity|]. split; [intros nb L; apply R, in_seq; lia|]. split; [exact P|]. split; [exact X|].
      unfold all_entries. now rewrite !entries_app.
    - apply (agree_trans _ _ _ A). rewrite <- entries_app. apply ours_agree, ours_app; [|apply labels_ours]. intros s n v J. apply in_flat_map in J. destruct J as (nb & _ & J). exact (bin_ours _ _ _ _ _ _ _ J).
  Qed.
End Run.
