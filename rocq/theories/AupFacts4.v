(** Lemmas about add_and_upsample.py: what a run leaves in the block. *)
From Coq Require Import ZArith Lia Lra.
From Verif Require Import Base Interp InterpFacts FftModel RsModel PipeModel PipeFacts OptModel ChainModel PredModel PredSpec AupModel AupSpec AupFacts AupFacts2 AupFacts3.
Open Scope R_scope.

Lemma fill_mode oz : fill_of oz = mode (negb (Z.eqb oz 0)).
Proof. unfold fill_of, mode. destruct (Z.eqb oz 0); reflexivity. Qed.
Lemma int_ok b s n v : int_at b s n = Ok v -> b s n = Some (BInt v).
Proof. unfold int_at. destruct (b s n) as [[]|]; try discriminate. now intro H; injection H as ->. Qed.
Lemma not_axis n : (n = "nbins" \/ n = "observable_z")%string -> ~ axis n.
Proof. intros [->| ->] [H|[H|H]]; discriminate. Qed.
Lemma keys_zero w c : keys w c 0 = [].
Proof. reflexivity. Qed.
Lemma turn_nil_l over ze ke J b : in_turn (map (do_job over ze ke) ([] ++ J)) b = in_turn (map (do_job over ze ke) J) b.
Proof. reflexivity. Qed.

Lemma grid_array b ze ke : grid_of b ze ke -> (z <- array b "matter_power_lin" "z" ;; k <- array b "matter_power_lin" "k_h" ;; Ok (z, k)) = Ok (ze, ke).
Proof. intros (A & B & _). unfold array. rewrite A, B. reflexivity. Qed.
Lemma jobs_app over ze ke J1 J2 b : in_turn (map (do_job over ze ke) (J1 ++ J2)) b = then_ (in_turn (map (do_job over ze ke) J1) b) (in_turn (map (do_job over ze ke) J2)).
Proof. rewrite map_app. apply turn_app. Qed.
Lemma run_ok over c b b' ze ke : grid_of b ze ke -> aup_execute over c b = (b', Ok tt) -> exists n oz m oz',
  in_turn (map (do_job over ze ke) (run_jobs c ze ke n m (fill_of oz) (fill_of oz'))) b = (b', Ok tt) /\
  (asks "extrapolate" c = true -> sample b (a_hext c) n oz) /\
  (asks "add_and_extrapolate" c = true -> sample b (a_hred c) m oz' /\ b (a_hblue c) "nbins"%string = Some (BInt m)).
Proof.
  intros G. unfold aup_execute. rewrite (grid_array b ze ke G). intros H. apply then_ok in H. destruct H as (b1 & H1 & H). apply then_ok in H. destruct H as (b2 & H2 & H).
  rewrite mpart in H1.
  assert (F1 : forall s n, (n = "nbins" \/ n = "observable_z")%string -> b1 s n = b s n).
  { intros s n N. replace b1 with (fst (in_turn (map (do_job over ze ke) (mjobs c ze ke)) b)) by now rewrite H1. apply turn_frame. right. now apply not_axis. }
  assert (E : exists n oz, in_turn (map (do_job over ze ke) (ejobs c n (fill_of oz) ze ke)) b1 = (b2, Ok tt) /\ (asks "extrapolate" c = true -> sample b (a_hext c) n oz)).
  { unfold extrapolate_part in H2. destruct (asks "extrapolate" c) eqn:A.
    - destruct (int_at b1 (a_hext c) "nbins") as [n|e] eqn:N; cbn [bind] in H2; [|discriminate]. destruct (int_at b1 (a_hext c) "observable_z") as [oz|e] eqn:O; cbn [bind] in H2; [|discriminate].
      apply int_ok in N, O. rewrite F1 in N, O by tauto. exists n, oz. rewrite <- eloop. split; [exact H2|]. intros _. now split.
    - injection H2 as <-. exists 0%Z, 0%Z. split; [reflexivity|discriminate]. }
  destruct E as (n & oz & E & S1).
  assert (F2 : forall s k, (k = "nbins" \/ k = "observable_z")%string -> b2 s k = b s k).
  { intros s k N. rewrite <- F1 by exact N. replace b2 with (fst (in_turn (map (do_job over ze ke) (ejobs c n (fill_of oz) ze ke)) b1)) by now rewrite E. apply turn_frame. right. now apply not_axis. }
  assert (Q : exists m oz', in_turn (map (do_job over ze ke) (ajobs c m (fill_of oz') ze ke)) b2 = (b', Ok tt) /\
     (asks "add_and_extrapolate" c = true -> sample b (a_hred c) m oz' /\ b (a_hblue c) "nbins"%string = Some (BInt m))).
  { unfold add_part in H. destruct (asks "add_and_extrapolate" c) eqn:A.
    - destruct (int_at b2 (a_hred c) "nbins") as [m|e] eqn:N; cbn [bind] in H; [|discriminate]. destruct (int_at b2 (a_hblue c) "nbins") as [m'|e] eqn:N'; cbn [bind] in H; [|discriminate].
      destruct (Z.eqb_spec m m') as [<-|D]; cbn [bind] in H; [|discriminate]. destruct (int_at b2 (a_hred c) "observable_z") as [oz'|e] eqn:O; cbn [bind] in H; [|discriminate].
      apply int_ok in N, N', O. rewrite F2 in N, N', O by tauto. exists m, oz'. rewrite <- aloop. split; [exact H|]. intros _. repeat split; assumption.
    - injection H as <-. exists 0%Z, 0%Z. split; [reflexivity|discriminate]. }
  destruct Q as (m & oz' & Q & S2). exists n, oz, m, oz'. split; [|split; [exact S1|exact S2]].
  unfold run_jobs. rewrite !jobs_app, H1. unfold then_ at 1. cbn [snd fst]. rewrite jobs_app, E. exact Q.
Qed.

Lemma bin_suffix_name n i : (1 <= i)%nat -> bin_suffix n (i - 1) = bin_name n i.
Proof. intros H. unfold bin_suffix, bin_name. now replace (i - 1 + 1)%nat with i by lia. Qed.
Lemma extrapolated_cells b sec beyond z k p ze ke t : has_power b sec z k p -> extrapolated b sec (mode beyond) ze ke = Ok t ->
  shaped ze ke t /\ forall j i, (j < List.length ze)%nat -> (i < List.length ke)%nat -> resampled beyond z k (cell p) (nth j ze 0) (nth i ke 0) (cell t j i).
Proof.
  intros (A & B & C & D & _) H. unfold extrapolated, array, table_at in H. rewrite A, B, C in H. cbn [bind] in H. apply signed_cells in H. destruct H as [S H].
  split; [exact S|]. intros j i Hj Hi. rewrite (H j i Hj Hi). now apply value_resampled.
Qed.
Lemma extrapolated_runs b sec f z k p ze ke : has_power b sec z k p -> exists t, extrapolated b sec f ze ke = Ok t.
Proof.
  intros (A & B & C & (D1 & D2 & _) & E). unfold extrapolated, array, table_at. rewrite A, B, C. cbn [bind]. apply signed_runs; [apply D1|apply D2|exact E].
Qed.
Lemma in_ejobs c n f ze ke s i : option_of c s = extrapolates -> (1 <= i <= Z.to_nat n)%nat -> In (ejob c n f ze ke ((i - 1)%nat, s)) (ejobs c n f ze ke).
Proof. intros O Hi. unfold ejobs. apply in_map, keys_in. cbn [fst snd]. split; [lia|]. now apply is_str_iff. Qed.
Lemma in_ajobs c n f ze ke s i : option_of c s = adds -> (1 <= i <= Z.to_nat n)%nat -> In (ajob c n f ze ke ((i - 1)%nat, s)) (ajobs c n f ze ke).
Proof. intros O Hi. unfold ajobs. apply in_map, keys_in. cbn [fst snd]. split; [lia|]. now apply is_str_iff. Qed.

(** ** Extrapolation *)
Lemma extrapolation over c b b' s n oz i ze ke z k t : aup_execute over c b = (b', Ok tt) -> grid_of b ze ke -> option_of c s = extrapolates ->
  sample b (a_hext c) n oz -> (1 <= i <= Z.to_nat n)%nat -> has_power b (name_of s ++ a_ext c ++ bin_name n i) z k t ->
  holds b' (name_of s ++ bin_name n i) ze ke (resampled (negb (Z.eqb oz 0)) z k (cell t)).
Proof.
  intros H G O S Hi P. destruct (run_ok over c b b' ze ke G H) as (n' & oz1 & m & oz' & R & SE & _).
  destruct (SE (proj2 (asks_iff _ c) (ex_intro _ s O))) as [N1 N2]. destruct S as [S1 S2]. rewrite S1 in N1. injection N1 as <-. rewrite S2 in N2. injection N2 as <-.
  set (j := ejob c n (fill_of oz) ze ke ((i - 1)%nat, s)).
  assert (J : In j (run_jobs c ze ke n m (fill_of oz) (fill_of oz'))).
  { unfold run_jobs. apply in_or_app. right. apply in_or_app. left. now apply in_ejobs. }
  destruct (job_values over ze ke _ j b b' (run_independent _ _ _ _ _ _ _) J R (or_introl eq_refl)) as [V1 V2]. destruct (V1 eq_refl) as (t' & T).
  destruct (V2 t' T) as (A & B & C). unfold j in A, B, C, T. cbn [ejob j_out j_val fst snd] in A, B, C, T. rewrite bin_suffix_name in A, B, C, T by lia.
  split; [exact A|]. split; [exact B|]. exists t'. split; [exact C|]. rewrite fill_mode in T. exact (extrapolated_cells _ _ _ _ _ _ _ _ _ P T).
Qed.
Lemma matter over c b b' sec ze ke z k t : aup_execute over c b = (b', Ok tt) -> grid_of b ze ke -> a_mm c = extrapolates ->
  sec = "matter_power_nl"%string \/ (sec = "matter_power_nl_mead"%string /\ over = true) -> has_power b sec z k t ->
  holds b' sec ze ke (resampled true z k (cell t)).
Proof.
  intros H G O S P. destruct (run_ok over c b b' ze ke G H) as (n & oz & m & oz' & R & _).
  assert (E : exists try, In (mjob try sec ze ke) (run_jobs c ze ke n m (fill_of oz) (fill_of oz')) /\ (try = false \/ over = true)).
  { unfold run_jobs, mjobs. rewrite (proj2 (is_str_iff _ _) O). destruct S as [->|[-> V]]; [exists false|exists true]; (split; [apply in_or_app; left; cbn; tauto|tauto]). }
  destruct E as (try & J & T). destruct (job_values over ze ke _ _ b b' (run_independent _ _ _ _ _ _ _) J R T) as [_ V].
  destruct (extrapolated_runs b sec (mode true) z k t ze ke P) as (t' & T'). destruct (V t' T') as (A & B & C). cbn [mjob j_out] in A, B, C.
  split; [exact A|]. split; [exact B|]. exists t'. split; [exact C|]. exact (extrapolated_cells _ _ true _ _ _ _ _ _ P T').
Qed.

(** ** Combination *)
Lemma mix2_mixed s f r b : mix2 (name_of s) f r b = mixed s f r b.
Proof. unfold mix2, mixed. destruct s; cbn; ring. Qed.
Lemma mixture_cell sec f p q j i : (j < List.length p)%nat -> (i < List.length (nth j p []))%nat -> cell (mixture sec f p q) j i = mix2 sec (f j) (cell p j i) (cell q j i).
Proof.
  intros Hj Hi. unfold cell at 1, mixture. rewrite (nth_map _ _ j 0%nat) by now rewrite seq_length. rewrite seq_nth by exact Hj. cbn [plus].
  rewrite (nth_map _ _ i 0%nat) by now rewrite seq_length. rewrite seq_nth by exact Hi. reflexivity.
Qed.
Lemma mixture_shape sec f p q z k : shaped z k p -> shaped z k (mixture sec f p q).
Proof.
  intros [A B]. unfold mixture. split; [now rewrite map_length, seq_length|]. intros r H. apply in_map_iff in H. destruct H as (j & <- & H). apply in_seq in H.
  rewrite map_length, seq_length. apply B, nth_In. lia.
Qed.
Lemma same_shaped z k p q : shaped z k p -> shaped z k q -> same_shape p q = true.
Proof.
  intros [A B] [C D]. unfold same_shape. rewrite A, C, Nat.eqb_refl. cbn [andb]. apply forallb_forall. intros j H. apply in_seq in H. apply Nat.eqb_eq.
  rewrite (B (nth j p [])), (D (nth j q [])) by (apply nth_In; lia). reflexivity.
Qed.
Lemma combined_ok zf ff b s red blue f ze ke z k p q : has_power b (name_of s ++ red) z k p -> b (name_of s ++ blue)%string "p_k"%string = Some (BTab q) -> shaped z k q ->
  rising zf -> List.length ff = List.length zf ->
  combined zf ff b (name_of s) red blue f ze ke = signed_resample f z k (mixture (name_of s) (fun j => line zf ff (nth j z 0)) p q) ze ke.
Proof.
  intros (A & B & C & D & E) Q SQ RF LF. unfold combined, array, table_at. rewrite A, B, C, Q. cbn [bind].
  rewrite (proj2 (Nat.leb_le 2 (List.length zf)) (proj1 RF)), LF, Nat.eqb_refl. cbn [andb bind]. rewrite (same_shaped z k p q E SQ), (proj1 E), Nat.eqb_refl. reflexivity.
Qed.
Lemma combined_cells zf ff b s red blue beyond ze ke z k p q t : has_power b (name_of s ++ red) z k p -> b (name_of s ++ blue)%string "p_k"%string = Some (BTab q) -> shaped z k q ->
  rising zf -> List.length ff = List.length zf -> combined zf ff b (name_of s) red blue (mode beyond) ze ke = Ok t ->
  shaped ze ke t /\ forall j i, (j < List.length ze)%nat -> (i < List.length ke)%nat ->
    resampled beyond z k (fun j i => mixed s (line zf ff (nth j z 0)) (cell p j i) (cell q j i)) (nth j ze 0) (nth i ke 0) (cell t j i).
Proof.
  intros P Q SQ RF LF H. rewrite (combined_ok _ _ _ _ _ _ _ _ _ _ _ _ _ P Q SQ RF LF) in H. destruct P as (_ & _ & _ & D & E). apply signed_cells in H. destruct H as [S H].
  split; [exact S|]. intros j i Hj Hi. rewrite (H j i Hj Hi).
  rewrite (value_ext _ z k _ (fun j i => mixed s (line zf ff (nth j z 0)) (cell p j i) (cell q j i))); [now apply value_resampled|apply D|apply D|].
  intros j' i' Hj' Hi'. rewrite mixture_cell; [apply mix2_mixed|rewrite (proj1 E); exact Hj'|].
  rewrite (proj2 E (nth j' p [])); [exact Hi'|]. apply nth_In. rewrite (proj1 E). exact Hj'.
Qed.
Lemma combination over c b b' s n oz i ze ke z k p q fr : aup_execute over c b = (b', Ok tt) -> grid_of b ze ke -> option_of c s = adds -> good_fraction c ->
  sample b (a_hred c) n oz -> (1 <= i <= Z.to_nat n)%nat -> has_power b (name_of s ++ a_red c ++ bin_name n i) z k p ->
  b (name_of s ++ a_blue c ++ bin_name n i)%string "p_k"%string = Some (BTab q) -> shaped z k q ->
  (forall j, (j < List.length z)%nat -> fraction_at c (nth j z 0) (fr j)) ->
  holds b' (name_of s ++ bin_name n i) ze ke (resampled (negb (Z.eqb oz 0)) z k (fun j i => mixed s (fr j) (cell p j i) (cell q j i))).
Proof.
  intros H G O (zf & ff & EF & RF & LF) S Hi P Q SQ FR. destruct (run_ok over c b b' ze ke G H) as (n' & oz1 & m & oz' & R & _ & SA).
  destruct (SA (proj2 (asks_iff _ c) (ex_intro _ s O))) as [[N1 N2] _]. destruct S as [S1 S2]. rewrite S1 in N1. injection N1 as <-. rewrite S2 in N2. injection N2 as <-.
  set (j := ajob c n (fill_of oz) ze ke ((i - 1)%nat, s)).
  assert (J : In j (run_jobs c ze ke n' n (fill_of oz1) (fill_of oz))).
  { unfold run_jobs. apply in_or_app. right. apply in_or_app. right. now apply in_ajobs. }
  destruct (job_values over ze ke _ j b b' (run_independent _ _ _ _ _ _ _) J R (or_introl eq_refl)) as [V1 V2]. destruct (V1 eq_refl) as (t' & T).
  destruct (V2 t' T) as (A & B & C). unfold j in A, B, C, T. cbn [ajob j_out j_val fst snd] in A, B, C, T. rewrite bin_suffix_name in A, B, C, T by lia. rewrite EF in T.
  split; [exact A|]. split; [exact B|]. exists t'. split; [exact C|]. rewrite fill_mode in T.
  destruct (combined_cells _ _ _ _ _ _ _ _ _ _ _ _ _ _ P Q SQ RF LF T) as [Sh V]. split; [exact Sh|]. intros j' i' Hj Hi'. specialize (V j' i' Hj Hi').
  destruct P as (_ & _ & _ & D & _). apply resampled_only in V; [|exact D]. rewrite V.
  rewrite (value_ext _ z k _ (fun j i => mixed s (fr j) (cell p j i) (cell q j i))); [now apply value_resampled|apply D|apply D|].
  intros j2 i2 Hj2 Hi2. f_equal. destruct (FR j2 Hj2) as (zf' & ff' & E' & L'). rewrite EF in E'. injection E' as <- <-. symmetry. now apply line_only.
Qed.

(** ** The rest of the block *)
Lemma run_frame over c b b' r s n : aup_execute over c b = (b', r) -> ~ (output c b s /\ axis n) -> b' s n = b s n.
Proof.
  unfold aup_execute. intros H N. destruct (z <- array b "matter_power_lin" "z" ;; k <- array b "matter_power_lin" "k_h" ;; Ok (z, k)) as [[ze ke]|e]; [|now injection H as <- _].
  assert (D : axis n \/ ~ axis n) by (unfold axis; destruct (string_dec n "z"), (string_dec n "k_h"), (string_dec n "p_k"); tauto).
  assert (X : ~ output c b s \/ ~ axis n) by tauto. clear N.
  assert (F1 : fst (matter_part over c ze ke b) s n = b s n).
  { rewrite mpart. apply turn_frame. destruct X as [X|X]; [left|now right]. intros j Hj E. subst s. apply X. left. unfold mjobs in Hj. destruct (is_str _ _) eqn:M; [|contradiction].
    apply is_str_iff in M. split; [exact M|]. destruct Hj as [<-|[<-|[]]]; cbn; tauto. }
  assert (M1 : forall s' n', (n' = "nbins" \/ n' = "observable_z")%string -> fst (matter_part over c ze ke b) s' n' = b s' n').
  { intros s' n' E. rewrite mpart. apply turn_frame. right. now apply not_axis. }
  destruct (matter_part over c ze ke b) as [b1 r1]. cbn [fst] in F1, M1. unfold then_ at 1 in H. cbn [snd fst] in H. destruct r1 as [u|e]; [|injection H as <- _; exact F1].
  assert (F2 : fst (extrapolate_part over c ze ke b1) s n = b1 s n /\ forall s' n', (n' = "nbins" \/ n' = "observable_z")%string -> fst (extrapolate_part over c ze ke b1) s' n' = b1 s' n').
  { unfold extrapolate_part. destruct (asks "extrapolate" c); [|now split]. destruct (int_at b1 (a_hext c) "nbins") as [k|e] eqn:K; cbn [bind]; [|now split].
    destruct (int_at b1 (a_hext c) "observable_z") as [oz|e] eqn:O; cbn [bind]; [|now split]. rewrite eloop. split.
    - apply turn_frame. destruct X as [X|X]; [left|now right]. intros j Hj E. subst s. apply X. right. unfold ejobs in Hj. apply in_map_iff in Hj. destruct Hj as ([i s] & <- & Hj).
      apply keys_in in Hj. cbn [fst snd] in Hj. destruct Hj as [Hi Hs]. apply is_str_iff in Hs. exists s, k, (i + 1)%nat. split; [lia|]. split.
      + cbn [ejob j_out fst snd]. rewrite <- bin_suffix_name by lia. now replace (i + 1 - 1)%nat with i by lia.
      + left. split; [exact Hs|]. apply int_ok in K. now rewrite <- M1 by tauto.
    - intros s' n' E. apply turn_frame. right. now apply not_axis. }
  destruct F2 as [F2 M2]. destruct (extrapolate_part over c ze ke b1) as [b2 r2]. cbn [fst] in F2, M2. unfold then_ at 1 in H. cbn [snd fst] in H.
  destruct r2 as [u2|e]; [|injection H as <- _; now rewrite F2].
  assert (F3 : fst (add_part over c ze ke b2) s n = b2 s n).
  { unfold add_part. destruct (asks "add_and_extrapolate" c); [|reflexivity]. destruct (int_at b2 (a_hred c) "nbins") as [k|e] eqn:K; cbn [bind]; [|reflexivity].
    destruct (int_at b2 (a_hblue c) "nbins") as [k'|e] eqn:K'; cbn [bind]; [|reflexivity]. destruct (Z.eqb k k'); cbn [bind]; [|reflexivity].
    destruct (int_at b2 (a_hred c) "observable_z") as [oz|e] eqn:O; cbn [bind]; [|reflexivity]. rewrite aloop.
    apply turn_frame. destruct X as [X|X]; [left|now right]. intros j Hj E. subst s. apply X. right. unfold ajobs in Hj. apply in_map_iff in Hj. destruct Hj as ([i s] & <- & Hj).
    apply keys_in in Hj. cbn [fst snd] in Hj. destruct Hj as [Hi Hs]. apply is_str_iff in Hs. exists s, k, (i + 1)%nat. split; [lia|]. split.
    - cbn [ajob j_out fst snd]. rewrite <- bin_suffix_name by lia. now replace (i + 1 - 1)%nat with i by lia.
    - right. split; [exact Hs|]. apply int_ok in K. rewrite <- M1, <- M2 by tauto. exact K. }
  rewrite H in F3. cbn [fst] in F3. now rewrite F3, F2.
Qed.
