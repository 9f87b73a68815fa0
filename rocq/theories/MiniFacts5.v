(** The likelihood of mini_2pt_like.py: whole runs. *)
From Coq Require Import ZArith.
From Verif Require Import Base Spec BaseFacts Interp InterpFacts QuadFacts FftModel PipeModel OptModel TpModel TpSpec TpFacts TpFacts6 ChainModel ChainFacts
  PredSpec PredFacts2 MiniModel MiniSpec MiniFacts MiniFacts2 MiniFacts3 MiniFacts4.
From Coq Require Import List.
Open Scope R_scope.

Lemma append_length : forall a b, String.length (a ++ b)%string = (String.length a + String.length b)%nat.
Proof. induction a as [|x a IH]; intro b; cbn; [reflexivity|now rewrite IH]. Qed.
Lemma chi_not s : (s ++ "_CHI2")%string <> "theory"%string /\ (s ++ "_CHI2")%string <> "data"%string.
Proof.
  split; intro H.
  - destruct s as [|a s]; [discriminate|]. destruct s as [|a' s]; [discriminate|]. pose proof (f_equal String.length H) as L. cbn in L. rewrite append_length in L. cbn in L. lia.
  - pose proof (f_equal String.length H) as L. rewrite append_length in L. cbn in L. lia.
Qed.
Lemma written_scored c b ts x : let d := List.concat (m_y c) in
  x = form (List.length d) (m_at (m_inv c)) (fun a => nth a d 0 - nth a (List.concat ts) 0) -> List.length (List.concat ts) = List.length d ->
  scored b (written_like c b ts x) c (List.concat ts).
Proof.
  intros d X L. destruct (chi_not (m_like c)) as [N1 N2]. unfold scored. cbv zeta. fold d. rewrite <- X. split; [exact L|]. unfold written_like. cbv zeta. fold d. repeat split.
  - destruct (m_keep c); [rewrite !(bput_other _ "data_vector" _) by (right; assumption)|]; rewrite bput_other by (left; discriminate); apply bput_same.
  - replace (- (x / 2)) with (- (1 / 2) * x) by field. destruct (m_keep c); [rewrite !(bput_other _ "data_vector" _) by (left; discriminate)|]; apply bput_same.
  - rewrite H. rewrite bput_other by (right; discriminate). apply bput_same.
  - rewrite H. apply bput_same.
  - intros s n A B C. assert (A' : s <> "data_vector"%string \/ n <> (m_like c ++ "_CHI2")%string) by (destruct (String.string_dec s "data_vector"); [right; intro Q; now apply A|now left]).
    assert (B' : s <> "likelihoods"%string \/ n <> (m_like c ++ "_LIKE")%string) by (destruct (String.string_dec s "likelihoods"); [right; intro Q; now apply B|now left]).
    destruct (m_keep c).
    + specialize (C eq_refl). rewrite bput_other. { rewrite bput_other. { rewrite bput_other by exact B'. apply bput_other, A'. }
        destruct (String.string_dec s "data_vector"); [right; intro Q; apply C; tauto|now left]. }
      destruct (String.string_dec s "data_vector"); [right; intro Q; apply C; tauto|now left].
    + rewrite bput_other by exact B'. apply bput_other, A'.
Qed.

Lemma bin_at nb secs k : (k < List.length (bin_list nb secs))%nat -> let p := nth k (bin_list nb secs) (""%string, 0%nat) in In (fst p) secs /\ (1 <= snd p <= nb (fst p))%nat.
Proof.
  intros H p. assert (I : In p (bin_list nb secs)) by now apply nth_In. apply in_flat_map in I as (s & Is & I). apply in_map_iff in I as (i & <- & I). apply in_seq in I.
  cbn [fst snd]. split; [exact Is|lia].
Qed.
Lemma factor_pos to_mpc u s f : (forall u f, to_mpc u = Some f -> 0 < f) -> unit_factor to_mpc u s f -> 0 < f.
Proof. intros H [[_ U]|[_ ->]]; [now apply (H u)|lra]. Qed.
Lemma scaled_pos x f : scales x -> 0 < f -> forall q, In q (map (fun v => v * f) x) -> 0 < q.
Proof.
  intros S F q I. apply in_map_iff in I as (v & <- & I). apply Rmult_lt_0_compat; [|exact F]. apply (In_nth _ _ 0) in I as (k & Hk & <-). now apply scales_pos.
Qed.
Lemma point_lengths m tx ty dx e t : theory_point m tx ty dx e = Ok t -> List.length tx = List.length ty.
Proof. unfold theory_point. destruct (Nat.eqb_spec (List.length tx) (List.length ty)); [auto|discriminate]. Qed.
Lemma shape_of to_mpc c b nb (P : list R -> list R -> list R -> R -> list R -> Prop) ts :
  (forall x tx ty f t, P x tx ty f t -> List.length t = List.length x) -> predicted to_mpc c b nb P ts -> map (@List.length R) ts = map (@List.length R) (m_x c).
Proof.
  intros HP (_ & L & V). apply nth_ext with 0%nat 0%nat; [now rewrite !map_length|]. intros k Hk. rewrite map_length in Hk.
  rewrite !(nth_map_lt _ _ []) by lia. destruct (V k Hk) as (f & tx & ty & _ & _ & Q). now apply HP in Q.
Qed.

Section Theory.
  Variables (to_mpc : string -> option R) (c : mconfig) (b : dblock).
  Lemma interpolate_theory ts : sane to_mpc c b -> m_mode c = "interpolate"%string -> theory_bins to_mpc c b = Ok ts ->
    exists nb, bin_counts b (m_sections c) nb /\ predicted to_mpc c b nb on_chords ts.
  Proof.
    intros (_ & SX & UP & ST) M T. destruct (theory_inv _ _ _ _ T) as (nb & C & L & LX & V). exists nb. split; [exact C|]. split; [exact L|]. split; [now symmetry|].
    intros k Hk p. specialize (V k Hk). cbn zeta in V. fold p in V. destruct (bin_at nb (m_sections c) k ltac:(lia)) as [I J]. fold p in I, J.
    destruct (bin_inv _ _ _ _ _ _ _ ltac:(apply J) V) as (x & f & tx & ty & X & U & HT & Q). rewrite M in Q.
    pose proof (point_lengths _ _ _ _ _ _ Q) as LT. specialize (HT LT). exists f, tx, ty. split; [exact U|]. split; [exact HT|].
    assert (Sx : scales x) by (apply SX; apply (nth_error_In _ _ X)). rewrite (nth_error_nth _ _ [] X).
    destruct (point_interpolate _ _ _ _ _ (ST _ _ _ _ I HT) (scaled_pos x f Sx (factor_pos _ _ _ _ UP U)) Q) as (_ & A & B). rewrite map_length in A, B.
    split; [exact A|]. intros q Hq. specialize (B q Hq). now rewrite (nth_map_lt _ _ 0) in B by exact Hq.
  Qed.
  Lemma integrate_theory ts : sane to_mpc c b -> m_mode c = "integrate"%string -> m_edge c = map edges_of (m_x c) -> theory_bins to_mpc c b = Ok ts ->
    exists nb, bin_counts b (m_sections c) nb /\ predicted to_mpc c b nb in_bins ts.
  Proof.
    intros (_ & SX & UP & ST) M E T. destruct (theory_inv _ _ _ _ T) as (nb & C & L & LX & V). exists nb. split; [exact C|]. split; [exact L|]. split; [now symmetry|].
    intros k Hk p. specialize (V k Hk). cbn zeta in V. fold p in V. destruct (bin_at nb (m_sections c) k ltac:(lia)) as [I J]. fold p in I, J.
    destruct (bin_inv _ _ _ _ _ _ _ ltac:(apply J) V) as (x & f & tx & ty & X & U & HT & Q). rewrite M in Q.
    pose proof (point_lengths _ _ _ _ _ _ Q) as LT. specialize (HT LT). exists f, tx, ty. split; [exact U|]. split; [exact HT|].
    assert (Sx : scales x) by (apply SX; apply (nth_error_In _ _ X)). rewrite (nth_error_nth _ _ [] X).
    rewrite E, (nth_map_lt _ _ []) in Q by lia. rewrite (nth_error_nth _ _ [] X), (edges_at x Sx) in Q.
    destruct (point_integrate _ _ _ _ _ Q) as (_ & A & B). rewrite map_length, seq_length in A, B.
    assert (G : forall j, (j <= List.length x)%nat -> nth j (map (edge_at x) (seq 0 (List.length x + 1))) 0 = edge_at x j) by (intros j Hj; rewrite (nth_map_lt _ _ 0%nat) by (rewrite seq_length; lia); now rewrite seq_nth by lia).
    split; [lia|]. intros j Hj. specialize (B j ltac:(lia)). rewrite !G in B by lia. exact B.
  Qed.
  Lemma scored_of b' ts : sane to_mpc c b -> mini_execute to_mpc c b = (b', Ok tt) -> theory_bins to_mpc c b = Ok ts -> map (@List.length R) ts = map (@List.length R) (m_x c) ->
    scored b b' c (List.concat ts) /\ (List.length (List.concat (m_y c)) <= m_n (m_inv c))%nat.
  Proof.
    intros (LY & _) H T L. rewrite LY in L. destruct (execute_chi _ _ _ _ H _ T L) as (x & -> & N & X). split; [|exact N]. apply written_scored; [exact X|].
    rewrite !concat_length. congruence.
  Qed.
  Lemma interpolate_runs nb : sane to_mpc c b -> m_mode c = "interpolate"%string -> bin_counts b (m_sections c) nb ->
    List.length (bin_list nb (m_sections c)) = List.length (m_x c) -> m_x c <> [] -> (List.length (List.concat (m_y c)) <= m_n (m_inv c))%nat ->
    (forall k, (k < List.length (m_x c))%nat -> let p := nth k (bin_list nb (m_sections c)) (""%string, 0%nat) in
       exists f tx ty, unit_factor to_mpc (m_unit c) (fst p) f /\ has_theory b (fst p) (snd p) tx ty /\
         forall v, In v (nth k (m_x c) []) -> nth 0 tx 0 <= v * f <= nth (List.length tx - 1) tx 0) ->
    exists b', mini_execute to_mpc c b = (b', Ok tt).
  Proof.
    intros SA M C L NE N V. pose proof SA as (LY & SX & UP & ST).
    set (g := fun k => let p := nth k (bin_list nb (m_sections c)) (""%string, 0%nat) in theory_bin to_mpc c b (fst p) (snd p - 1) k).
    assert (G : forall k, In k (seq 0 (List.length (m_x c))) -> exists t, g k = Ok t).
    { intros k K. apply in_seq in K. destruct (V k ltac:(lia)) as (f & tx & ty & U & HT & Rg). unfold g. destruct (bin_at nb (m_sections c) k ltac:(lia)) as [I J].
      rewrite (bin_run to_mpc c b _ _ k (nth k (m_x c) []) f tx ty); [|apply J|apply nth_error_nth'; lia|exact U|exact HT]. rewrite M.
      apply point_interpolate_run; [apply (ST _ _ _ _ I HT)|apply HT|]. intros q Q. apply in_map_iff in Q as (v & <- & Q). now apply Rg. }
    destruct (mapr_total g _ G) as (ts & Hts). destruct (mapr_seq _ [] _ _ Hts) as [Lt Vt].
    assert (T : theory_bins to_mpc c b = Ok ts) by (apply (theory_run _ _ _ _ nb); [exact C|lia|lia|]; intros k Hk; apply Vt; lia).
    apply (execute_ok to_mpc c b ts T); [|intro Z0; subst ts; cbn in Lt; apply NE; now destruct (m_x c)|exact N].
    destruct (interpolate_theory ts SA M T) as (nb' & _ & PP). rewrite <- LY. apply (shape_of to_mpc c b nb' on_chords); [|exact PP]. now intros x tx ty f t [Q _].
  Qed.
  Lemma integrate_runs nb : sane to_mpc c b -> m_mode c = "integrate"%string -> m_edge c = map edges_of (m_x c) -> bin_counts b (m_sections c) nb ->
    List.length (bin_list nb (m_sections c)) = List.length (m_x c) -> m_x c <> [] -> (List.length (List.concat (m_y c)) <= m_n (m_inv c))%nat ->
    (forall k, (k < List.length (m_x c))%nat -> let p := nth k (bin_list nb (m_sections c)) (""%string, 0%nat) in
       exists f tx ty, unit_factor to_mpc (m_unit c) (fst p) f /\ has_theory b (fst p) (snd p) tx ty) ->
    exists b', mini_execute to_mpc c b = (b', Ok tt).
  Proof.
    intros SA M E C L NE N V. pose proof SA as (LY & SX & UP & ST).
    set (g := fun k => let p := nth k (bin_list nb (m_sections c)) (""%string, 0%nat) in theory_bin to_mpc c b (fst p) (snd p - 1) k).
    assert (G : forall k, In k (seq 0 (List.length (m_x c))) -> exists t, g k = Ok t).
    { intros k K. apply in_seq in K. destruct (V k ltac:(lia)) as (f & tx & ty & U & HT). unfold g. destruct (bin_at nb (m_sections c) k ltac:(lia)) as [I J].
      rewrite (bin_run to_mpc c b _ _ k (nth k (m_x c) []) f tx ty); [|apply J|apply nth_error_nth'; lia|exact U|exact HT]. rewrite M.
      apply point_integrate_run, HT. }
    destruct (mapr_total g _ G) as (ts & Hts). destruct (mapr_seq _ [] _ _ Hts) as [Lt Vt].
    assert (T : theory_bins to_mpc c b = Ok ts) by (apply (theory_run _ _ _ _ nb); [exact C|lia|lia|]; intros k Hk; apply Vt; lia).
    apply (execute_ok to_mpc c b ts T); [|intro Z0; subst ts; cbn in Lt; apply NE; now destruct (m_x c)|exact N].
    destruct (integrate_theory ts SA M E T) as (nb' & _ & PP). rewrite <- LY. apply (shape_of to_mpc c b nb' in_bins); [|exact PP]. now intros x tx ty f t [Q _].
  Qed.
  (** A theory that does not cover a data point. *)
  Lemma not_covered nb k : sane to_mpc c b -> m_mode c = "interpolate"%string -> bin_counts b (m_sections c) nb ->
    List.length (bin_list nb (m_sections c)) = List.length (m_x c) -> (k < List.length (m_x c))%nat ->
    (let p := nth k (bin_list nb (m_sections c)) (""%string, 0%nat) in
       exists f tx ty v, unit_factor to_mpc (m_unit c) (fst p) f /\ has_theory b (fst p) (snd p) tx ty /\
         In v (nth k (m_x c) []) /\ (v * f < nth 0 tx 0 \/ nth (List.length tx - 1) tx 0 < v * f)) ->
    exists e, mini_execute to_mpc c b = (b, Err e).
  Proof.
    intros SA M C L Hk (f & tx & ty & v & U & HT & I & O). destruct (theory_bins to_mpc c b) as [ts|e] eqn:T; [|exists e; now apply execute_err].
    exfalso. destruct (theory_inv _ _ _ _ T) as (nb' & C' & L' & LX & V). assert (E : bin_list nb' (m_sections c) = bin_list nb (m_sections c)).
    { apply bin_list_ext. intros s Is. pose proof (counts_nb _ _ _ C s Is). pose proof (counts_nb _ _ _ C' s Is). congruence. }
    rewrite E in V. specialize (V k ltac:(lia)). cbn zeta in V. destruct (bin_at nb (m_sections c) k ltac:(lia)) as [Is J].
    rewrite (bin_run to_mpc c b _ _ k (nth k (m_x c) []) f tx ty) in V; [|apply J|apply nth_error_nth'; lia|exact U|exact HT]. rewrite M in V.
    destruct SA as (LY & SX & UP & ST). rewrite point_outside in V; [discriminate|apply (ST _ _ _ _ Is HT)| |].
    - apply scaled_pos; [apply SX; apply nth_In; exact Hk|apply (factor_pos _ _ _ _ UP U)].
    - exists (v * f). split; [|exact O]. apply in_map_iff. now exists v.
  Qed.
  Lemma wrong_count nb : bin_counts b (m_sections c) nb -> List.length (bin_list nb (m_sections c)) <> List.length (m_x c) ->
    mini_execute to_mpc c b = (b, Err "ValueError").
  Proof.
    intros C N. apply execute_err. unfold theory_bins. rewrite count_bins_run.
    - cbn [bind]. rewrite (sum_bin_list _ _ _ C). replace (Z.eqb _ _) with false by (symmetry; apply Z.eqb_neq; lia). reflexivity.
    - intros s I. unfold nz_of. now rewrite (C s I).
  Qed.
  Lemma fails_unchanged b' e : mini_execute to_mpc c b = (b', Err e) -> m_x c <> [] -> b' = b.
  Proof.
    unfold mini_execute. intros H N. destruct (theory_bins to_mpc c b) as [ts|e'] eqn:T; cbn [bind] in H; [|now inversion H].
    destruct (residuals _ ts); cbn [bind] in H; [|now inversion H]. destruct (chi_square _ _ _); cbn [bind] in H; [|now inversion H].
    destruct (m_keep c); [|discriminate]. destruct ts; [|discriminate]. destruct (theory_inv _ _ _ _ T) as (_ & _ & _ & L & _). destruct (m_x c); [contradiction|discriminate].
  Qed.
End Theory.
