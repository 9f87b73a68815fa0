(** The theory vector: what it reads from the data block, in which order, and
    how it lines up with the data vector. *)
From Verif Require Import Base BaseFacts OptModel TpModel TpSpec TpFacts TpFacts2 TpFacts3 TpFacts4 TpFacts5.
From Coq Require Import ZArith List Sorting.Sorted.
Import ListNotations.

Local Arguments bin_name : simpl never.

(** ** The bins of one statistic *)
Lemma row_ggl_spec : forall b sec i n fuel j0, (n <= fuel)%nat ->
  (forall k, (k < n)%nat -> has_value b sec (bin_name (S i) (S (j0 + k))) = true) ->
  has_value b sec (bin_name (S i) (S (j0 + n))) = false ->
  row_ggl b sec i fuel j0 = map (fun j => (i, j, block_val b sec (bin_name (S i) (S j)))) (seq j0 n).
Proof.
  intros b sec i n. induction n as [| n IH]; intros fuel j0 L H N.
  - rewrite Nat.add_0_r in N. destruct fuel as [| fuel]; [reflexivity |]. cbn. rewrite !Nat.add_1_r.
    unfold has_value in N. now destruct (b_value b sec (bin_name (S i) (S j0))).
  - destruct fuel as [| fuel]; [lia |]. cbn. rewrite !Nat.add_1_r. pose proof (H 0%nat ltac:(lia)) as H0. rewrite Nat.add_0_r in H0.
    unfold has_value in H0. unfold block_val at 1. destruct (b_value b sec (bin_name (S i) (S j0))); [| discriminate H0]. f_equal.
    apply IH; [lia | |].
    + intros k Hk. rewrite Nat.add_succ_comm. apply H. lia.
    + now rewrite Nat.add_succ_comm.
Qed.
Lemma rows_ggl_spec : forall b sec ns n fuel i0, (n <= fuel)%nat ->
  (forall k, (k < n)%nat -> has_value b sec (bin_name (S (i0 + k)) 1) = true) ->
  has_value b sec (bin_name (S (i0 + n)) 1) = false ->
  (forall k, (k < n)%nat -> first_missing (fun j => has_value b sec (bin_name (S (i0 + k)) (S j))) (ns (i0 + k)%nat) /\ (ns (i0 + k) <= 1000)%nat) ->
  rows_ggl b sec fuel i0 =
    flat_map (fun i => map (fun j => (i, j, block_val b sec (bin_name (S i) (S j)))) (seq 0 (ns i))) (seq i0 n).
Proof.
  intros b sec ns n. induction n as [| n IH]; intros fuel i0 L H N F.
  - rewrite Nat.add_0_r in N. destruct fuel as [| fuel]; [reflexivity |]. cbn -[row_ggl nb_tomo_max]. rewrite !Nat.add_1_r. now rewrite N.
  - destruct fuel as [| fuel]; [lia |]. cbn -[row_ggl nb_tomo_max]. rewrite !Nat.add_1_r. pose proof (H 0%nat ltac:(lia)) as H0. rewrite Nat.add_0_r in H0. rewrite H0.
    f_equal.
    + destruct (F 0%nat ltac:(lia)) as ((A & B) & C). rewrite Nat.add_0_r in *. apply row_ggl_spec; [exact C | exact A | exact B].
    + apply IH; [lia | | |].
      * intros k Hk. rewrite Nat.add_succ_comm. apply H. lia.
      * now rewrite Nat.add_succ_comm.
      * intros k Hk. rewrite Nat.add_succ_comm. apply F. lia.
Qed.
Lemma gather_ggl : forall b sec nl ns, ggl_bins b sec nl ns ->
  gather b sec true =
    flat_map (fun i => map (fun j => (i, j, block_val b sec (bin_name (S i) (S j)))) (seq 0 (ns i))) (seq 0 nl).
Proof.
  intros b sec nl ns ((A & B) & C & D). unfold gather. apply rows_ggl_spec; [exact C | exact A | exact B | exact D].
Qed.

Lemma row_auto_spec : forall b sec i n fuel j0, (n <= fuel)%nat ->
  (forall k, (k < n)%nat -> has_value b sec (bin_name (S (j0 + k)) (S i)) = true) ->
  has_value b sec (bin_name (S (j0 + n)) (S i)) = false ->
  row_auto b sec i fuel j0 = map (fun j => (i, j, block_val b sec (bin_name (S j) (S i)))) (seq j0 n).
Proof.
  intros b sec i n. induction n as [| n IH]; intros fuel j0 L H N.
  - rewrite Nat.add_0_r in N. destruct fuel as [| fuel]; [reflexivity |]. cbn. rewrite !Nat.add_1_r.
    unfold has_value in N. now destruct (b_value b sec (bin_name (S j0) (S i))).
  - destruct fuel as [| fuel]; [lia |]. cbn. rewrite !Nat.add_1_r. pose proof (H 0%nat ltac:(lia)) as H0. rewrite Nat.add_0_r in H0.
    unfold has_value in H0. unfold block_val at 1. destruct (b_value b sec (bin_name (S j0) (S i))); [| discriminate H0]. f_equal.
    apply IH; [lia | |].
    + intros k Hk. rewrite Nat.add_succ_comm. apply H. lia.
    + now rewrite Nat.add_succ_comm.
Qed.
Lemma rows_auto_spec : forall b sec m n fuel i0, (n <= fuel)%nat ->
  (forall k, (k < n)%nat -> has_value b sec (bin_name (S (i0 + k)) (S (i0 + k))) = true) ->
  has_value b sec (bin_name (S (i0 + n)) (S (i0 + n))) = false ->
  (forall k, (k < n)%nat -> first_missing (fun d => has_value b sec (bin_name (S (i0 + k + d)) (S (i0 + k)))) (m (i0 + k)%nat) /\ (i0 + k + m (i0 + k) <= 1000)%nat) ->
  rows_auto b sec fuel i0 =
    flat_map (fun i => map (fun j => (i, j, block_val b sec (bin_name (S j) (S i)))) (seq i (m i))) (seq i0 n).
Proof.
  intros b sec m n. induction n as [| n IH]; intros fuel i0 L H N F.
  - rewrite Nat.add_0_r in N. destruct fuel as [| fuel]; [reflexivity |]. cbn -[row_auto nb_tomo_max]. rewrite !Nat.add_1_r. now rewrite N.
  - destruct fuel as [| fuel]; [lia |]. cbn -[row_auto nb_tomo_max]. rewrite !Nat.add_1_r. pose proof (H 0%nat ltac:(lia)) as H0. rewrite Nat.add_0_r in H0. rewrite H0.
    f_equal.
    + destruct (F 0%nat ltac:(lia)) as ((A & B) & C). rewrite Nat.add_0_r in *.
      apply row_auto_spec; [unfold nb_tomo_max; lia | exact A | exact B].
    + apply IH; [lia | | |].
      * intros k Hk. rewrite Nat.add_succ_comm. apply H. lia.
      * now rewrite Nat.add_succ_comm.
      * intros k Hk. rewrite Nat.add_succ_comm. apply F. lia.
Qed.
Lemma gather_auto : forall b sec n m, auto_pairs b sec n m ->
  gather b sec false =
    flat_map (fun i => map (fun j => (i, j, block_val b sec (bin_name (S j) (S i)))) (seq i (m i))) (seq 0 n).
Proof.
  intros b sec n m ((A & B) & C & D). unfold gather. apply rows_auto_spec; [exact C | exact A | exact B | exact D].
Qed.

(** ** From bins to a measurement *)
Lemma flat_map_len : forall {A B} (f : A -> list B) l n, (forall x, In x l -> length (f x) = n) -> length (flat_map f l) = (length l * n)%nat.
Proof.
  induction l as [| x l IH]; intros n H; cbn; [reflexivity |]. rewrite app_length, (H x (or_introl eq_refl)), (IH n); [reflexivity |].
  intros y Hy. apply H. now right.
Qed.
Lemma one_pair_rows : forall name ang i j,
  map (fun q => let '(b1, b2, ab, an) := q in P2 name b1 b2 ab an)
    (combine (combine (combine (repeat (Z.of_nat i + 1)%Z (length ang)) (repeat (Z.of_nat j + 1)%Z (length ang)))
       (map (fun k => (Z.of_nat k + 1)%Z) (seq 0 (length ang)))) ang) = pair_points name ang i j.
Proof.
  intros name ang i j. unfold pair_points.
  assert (G : forall ang' s d,
    (forall k, (k < length ang')%nat -> nth (s + k) (d ++ ang') 0 = nth k ang' 0) -> length d = s ->
    map (fun q => let '(b1, b2, ab, an) := q in P2 name b1 b2 ab an)
      (combine (combine (combine (repeat (Z.of_nat i + 1)%Z (length ang')) (repeat (Z.of_nat j + 1)%Z (length ang')))
         (map (fun k => (Z.of_nat k + 1)%Z) (seq s (length ang')))) ang')
    = map (fun k => P2 name (Z.of_nat (S i)) (Z.of_nat (S j)) (Z.of_nat (S k)) (nth k (d ++ ang') 0)) (seq s (length ang'))).
  { induction ang' as [| a ang' IH]; intros s d H Hd; [reflexivity |]. cbn -[Z.of_nat]. f_equal.
    - f_equal; try lia. specialize (H 0%nat ltac:(cbn; lia)). rewrite Nat.add_0_r in H. now rewrite H.
    - specialize (IH (S s) (d ++ [a])). rewrite IH.
      + apply map_ext. intro k. now rewrite <- app_assoc.
      + intros k Hk. rewrite <- app_assoc. cbn [app]. specialize (H (S k) ltac:(cbn; lia)). rewrite Nat.add_succ_comm. exact H.
      + rewrite app_length. cbn. lia. }
  apply (G ang 0%nat []); [reflexivity | reflexivity].
Qed.
Lemma make_spectrum_spec : forall name ang tomo, tomo <> [] -> Forall (fun t => length (snd t) = length ang) tomo ->
  exists s, make_spectrum name ang tomo = Ok s /\ raw_sp s /\ sp_name s = name /\
    sp_points s = flat_map (fun t => pair_points name ang (fst (fst t)) (snd (fst t))) tomo /\
    sp_val s = flat_map snd tomo.
Proof.
  intros name ang tomo NE F. unfold make_spectrum. destruct tomo as [| t0 tomo0]; [now destruct NE |].
  remember (t0 :: tomo0) as tomo. clear Heqtomo NE t0 tomo0. eexists. split; [reflexivity |]. split.
  - assert (L : length (flat_map (fun t => snd t) tomo) = (length tomo * length ang)%nat).
    { apply flat_map_len. intros x Hx. exact (proj1 (Forall_forall _ _) F x Hx). }
    unfold raw_sp. cbn. rewrite L.
    repeat split; apply flat_map_len; intros x _; now rewrite ?repeat_length, ?map_length, ?seq_length.
  - split; [reflexivity |]. split; [| reflexivity]. unfold sp_points. cbn.
    induction F as [| t tomo Ht F IH]; [reflexivity |]. cbn.
    rewrite !combine_app by now rewrite ?combine_length, ?repeat_length, ?map_length, ?seq_length, ?Nat.min_id.
    rewrite map_app, IH. f_equal. apply one_pair_rows.
Qed.

Lemma flat_map_flat : forall {A B C} (f : A -> list B) (g : B -> list C) l,
  flat_map g (flat_map f l) = flat_map (fun x => flat_map g (f x)) l.
Proof. induction l as [| x l IH]; cbn; [reflexivity |]. now rewrite flat_map_app, IH. Qed.
Lemma flat_map_map : forall {A B C} (f : A -> B) (g : B -> list C) l, flat_map g (map f l) = flat_map (fun x => g (f x)) l.
Proof. induction l as [| x l IH]; cbn; [reflexivity |]. now rewrite IH. Qed.

Lemma lens_spectrum : forall b sec ext kind nl ns ang,
  b_section b sec = true -> angles b sec kind = Ok ang -> ggl_bins b sec nl ns -> (0 < nl)%nat ->
  (forall i j, (i < nl)%nat -> (j < ns i)%nat -> length (block_val b sec (bin_name (S i) (S j))) = length ang) ->
  exists s, theory_spectrum b (sec, ext, kind, true) = Ok s /\ raw_sp s /\ sp_name s = ext /\
    sp_points s = flat_map (fun i => flat_map (pair_points ext ang i) (seq 0 (ns i))) (seq 0 nl) /\
    sp_val s = flat_map (fun i => flat_map (fun j => block_val b sec (bin_name (S i) (S j))) (seq 0 (ns i))) (seq 0 nl).
Proof.
  intros b sec ext kind nl ns ang Hs Ha Hb Hn Hl. unfold theory_spectrum. rewrite Hs, Ha. cbn [bind].
  rewrite (gather_ggl b sec nl ns Hb).
  destruct (make_spectrum_spec ext ang (flat_map (fun i => map (fun j => (i, j, block_val b sec (bin_name (S i) (S j)))) (seq 0 (ns i))) (seq 0 nl)))
    as (s & E & Rw & N & P & V).
  - destruct Hb as ((A & _) & _ & D). specialize (A 0%nat Hn). destruct (D 0%nat Hn) as ((D1 & D2) & _).
    destruct nl as [| nl]; [lia |]. cbn. destruct (ns 0%nat); [congruence | discriminate].
  - apply Forall_forall. intros t Ht. apply in_flat_map in Ht as (i & Hi & Ht). apply in_map_iff in Ht as (j & <- & Hj).
    apply in_seq in Hi, Hj. cbn. apply Hl; lia.
  - exists s. split; [exact E |]. split; [exact Rw |]. split; [exact N |]. rewrite P, V, !flat_map_flat.
    split; apply flat_map_ext; intro i; now rewrite flat_map_map.
Qed.
Lemma pair_spectrum : forall b sec ext kind n m ang,
  b_section b sec = true -> angles b sec kind = Ok ang -> auto_pairs b sec n m -> (0 < n)%nat ->
  (forall i j, (i < n)%nat -> (i <= j < i + m i)%nat -> length (block_val b sec (bin_name (S j) (S i))) = length ang) ->
  exists s, theory_spectrum b (sec, ext, kind, false) = Ok s /\ raw_sp s /\ sp_name s = ext /\
    sp_points s = flat_map (fun i => flat_map (pair_points ext ang i) (seq i (m i))) (seq 0 n) /\
    sp_val s = flat_map (fun i => flat_map (fun j => block_val b sec (bin_name (S j) (S i))) (seq i (m i))) (seq 0 n).
Proof.
  intros b sec ext kind n m ang Hs Ha Hb Hn Hl. unfold theory_spectrum. rewrite Hs, Ha. cbn [bind].
  rewrite (gather_auto b sec n m Hb).
  destruct (make_spectrum_spec ext ang (flat_map (fun i => map (fun j => (i, j, block_val b sec (bin_name (S j) (S i)))) (seq i (m i))) (seq 0 n)))
    as (s & E & Rw & N & P & V).
  - destruct Hb as ((A & _) & _ & D). specialize (A 0%nat Hn). destruct (D 0%nat Hn) as ((D1 & D2) & _).
    destruct n as [| n]; [lia |]. cbn. destruct (m 0%nat); [cbn in D2; congruence | discriminate].
  - apply Forall_forall. intros t Ht. apply in_flat_map in Ht as (i & Hi & Ht). apply in_map_iff in Ht as (j & <- & Hj).
    apply in_seq in Hi, Hj. cbn. apply Hl; lia.
  - exists s. split; [exact E |]. split; [exact Rw |]. split; [exact N |]. rewrite P, V, !flat_map_flat.
    split; apply flat_map_ext; intro i; now rewrite flat_map_map.
Qed.
Lemma no_bins : forall b sec ext kind ggl ang, b_section b sec = true -> angles b sec kind = Ok ang ->
  has_value b sec (bin_name 1 1) = false -> theory_spectrum b (sec, ext, kind, ggl) = Err "ValueError"%string.
Proof.
  intros b sec ext kind ggl ang Hs Ha Hb. unfold theory_spectrum. rewrite Hs, Ha. cbn [bind].
  assert (E1 : forall n, rows_ggl b sec n 0 = []) by (intros [| n]; [reflexivity | cbn [rows_ggl Nat.add]; now rewrite Hb]).
  assert (E2 : forall n, rows_auto b sec n 0 = []) by (intros [| n]; [reflexivity | cbn [rows_auto Nat.add]; now rewrite Hb]).
  unfold gather. rewrite E1, E2. now destruct ggl.
Qed.

(** The middle of a band, on a logarithmic scale. *)
Lemma band_centre : forall l u, 0 < l -> 0 < u -> pow10 (1 / 2 * (log10 l + log10 u)) = sqrt (l * u).
Proof.
  intros l u Hl Hu. rewrite <- log10_mult by assumption.
  assert (P : 0 < l * u) by now apply Rmult_lt_0_compat.
  apply Rsqr_inj; [apply Rlt_le, pow10_pos | apply sqrt_pos |].
  rewrite Rsqr_sqrt by lra. unfold Rsqr. rewrite <- pow10_plus.
  replace (1 / 2 * log10 (l * u) + 1 / 2 * log10 (l * u)) with (log10 (l * u)) by lra. now apply pow10_log10.
Qed.

(** The whole uncut theory. *)
Lemma theory_file_inv : forall b sec ext stats g, theory_file b sec ext stats = Ok g ->
  Forall2 (fun line s => theory_spectrum b line = Ok s)
    (filter (fun line => mem (snd (fst (fst line))) stats) (section_list sec ext)) (f_spectra g) /\
  theory_onept b sec ext stats = Ok (f_nobs g) /\ f_cov g = None.
Proof.
  intros b sec ext stats g H. unfold theory_file in H. apply bind_ok in H as (sp & Es & H). apply bind_ok in H as (o & Eo & H).
  rewrite make_file_plain in H. injection H as <-. cbn [f_spectra f_nobs f_cov]. split; [| auto].
  fold (theory_lines sec ext stats). revert sp Es. generalize (theory_lines sec ext stats).
  induction l as [| x l IH]; intros sp H; cbn in H; [injection H as <-; constructor |].
  apply bind_ok in H as (y & Hy & H). apply bind_ok in H as (ys & Hys & H). injection H as <-. constructor; auto.
Qed.

(** ** Theory against data *)
Lemma setup_inv : forall to_int to_float inv c items f s, setup to_int to_float inv c items f = Ok s ->
  exists lc f1 f2 d m, make_args to_int to_float c items = Ok (Some (o_stats s), o_args s) /\
    mapr (custom_tag c) (o_stats s) = Ok lc /\ run_ops (ops_of (o_args s)) f = Ok f1 /\ choose_data_sets lc f1 = Ok f2 /\
    mean_vector f2 = Ok d /\ f_cov f2 = Some m /\ d = o_data s /\ m = o_cov s /\ inv m = Ok (o_inv s).
Proof.
  intros to_int to_float inv c items f s H. unfold setup in H. apply bind_ok in H as ((stats & a) & Ea & H). cbn [fst snd] in H.
  apply bind_ok in H as (f2 & E2 & H). apply bind_ok in H as (d & Ed & H).
  destruct (f_cov f2) as [m |] eqn:Em; [| discriminate H]. destruct stats as [l |]; [| discriminate H].
  apply bind_ok in H as (i & Ei & H). injection H as <-. cbn.
  apply setup_cuts_inv in E2 as (l' & lc & f1 & El & Elc & E1 & E2). injection El as <-.
  exists lc, f1, f2, d, m. auto 10.
Qed.

Lemma theory_inv : forall b sec ext s t, theory_vector b sec ext s = Ok t ->
  exists g g1, theory_file b sec ext (o_stats s) = Ok g /\ run_ops (ops_of (o_args s)) g = Ok g1 /\ mean_vector g1 = Ok t.
Proof.
  intros b sec ext s t H. unfold theory_vector in H. apply bind_ok in H as (g & Eg & H). apply bind_ok in H as (g0 & E0 & H).
  apply bind_ok in H as (g1 & E1 & H). exists g, g1. split; [exact Eg |]. split; [| exact H]. rewrite <- cuts_run, E0. exact E1.
Qed.

Lemma theory_aligned : forall to_int to_float inv c items f s b sec ext g t lc,
  wf_file f -> setup to_int to_float inv c items f = Ok s -> theory_vector b sec ext s = Ok t ->
  theory_file b sec ext (o_stats s) = Ok g -> wf_file g ->
  mapr (custom_tag c) (o_stats s) = Ok lc -> points g = filter (chosen_b lc) (points f) ->
  exists pts Kd Kt, StronglySorted lt Kd /\ StronglySorted lt Kt /\
    picks Kd (points f) pts /\ picks Kd (values f) (o_data s) /\
    picks Kt (points g) pts /\ picks Kt (values g) t /\
    m_n (o_cov s) = length pts /\
    forall m i j a b, f_cov f = Some m -> nth_error Kd i = Some a -> nth_error Kd j = Some b -> m_at (o_cov s) i j = m_at m a b.
Proof.
  intros to_int to_float inv c items f s b sec ext g t lc Wf Hs Ht Hg Wg Hlc Hp.
  apply setup_inv in Hs as (lc' & f1 & f2 & d & m & _ & Elc & E1 & E2 & Ed & Em & -> & -> & _).
  rewrite Hlc in Elc. injection Elc as <-.
  apply theory_inv in Ht as (g' & g1 & Eg & Eg1 & Et). rewrite Hg in Eg. injection Eg as <-.
  destruct (run_aligned lc (o_args s) f f1 f2 g g1 Wf Wg Hp E1 E2 Eg1) as (W2 & Wg1 & PP).
  destruct (run_ops_cut _ f f1 Wf E1) as (W1 & K1 & C1). destruct (run_ops_cut _ g g1 Wg Eg1) as (_ & Kt & Ct).
  destruct (choose_spec lc f1 f2 W1 E2) as (_ & _ & (K2 & C2 & _) & _).
  pose proof (cut_trans _ _ _ _ _ C1 C2) as C. pose proof (mean_vector_inv f2 _ W2 Ed) as ->. pose proof (mean_vector_inv g1 _ Wg1 Et) as ->.
  exists (points f2), (compose_K K1 K2), Kt.
  split; [exact (cut_sorted _ _ _ C) |]. split; [exact (cut_sorted _ _ _ Ct) |].
  split; [exact (cut_points _ _ _ C) |]. split; [exact (cut_values _ _ _ C) |].
  split; [rewrite <- PP; exact (cut_points _ _ _ Ct) |]. split; [exact (cut_values _ _ _ Ct) |].
  split; [exact (proj1 (wf_cov f2 W2 _ Em)) |].
  intros mm i j a b0 Emm Hi Hj. pose proof (cut_cov _ _ _ C) as Q. rewrite Emm, Em in Q. now apply Q.
Qed.

Lemma substring_all : forall b, String.substring 0 (String.length b) b = b.
Proof. induction b as [| x b IH]; cbn; [reflexivity | now rewrite IH]. Qed.
Lemma substring_split : forall n m s, (n + m <= String.length s)%nat -> exists a b, s = (a ++ String.substring n m s ++ b)%string.
Proof.
  induction n as [| n IH]; intros m s H.
  - exists ""%string. cbn [append]. revert m H. induction s as [| x s IH]; intros [| m] H; cbn in *; try lia; eauto.
    destruct (IH m ltac:(lia)) as (b & E). exists b. now rewrite <- E.
  - destruct s as [| x s]; cbn in H; [lia |]. destruct (IH m s ltac:(lia)) as (a & b & E). exists (String x a), b. cbn. now rewrite <- E.
Qed.
Lemma append_length : forall a b, String.length (a ++ b) = (String.length a + String.length b)%nat.
Proof. induction a as [| x a IH]; intro b; cbn; [reflexivity | now rewrite IH]. Qed.
Lemma substring_length_le : forall n m s, (String.length (String.substring n m s) = m -> m = 0 \/ n + m <= String.length s)%nat.
Proof.
  induction n as [| n IH]; intros m s H.
  - right. revert m H. induction s as [| x s IH]; intros [| m] H; cbn in *; try lia. injection H as H. specialize (IH m H). lia.
  - destruct s as [| x s]; cbn in *; [left; destruct m; cbn in *; congruence |]. destruct (IH m s H); [now left | right; lia].
Qed.
Lemma substring_mid : forall a n b, String.substring (String.length a) (String.length n) (a ++ n ++ b) = n.
Proof.
  induction a as [| x a IH]; intros n b; cbn; [| apply IH].
  induction n as [| y n IHn]; cbn; [now destruct b | now rewrite IHn].
Qed.
Lemma contains_iff : forall n t, contains n t = true <-> substring_of n t.
Proof.
  intros n t. unfold contains. split.
  - destruct (String.index 0 n t) as [m |] eqn:E; [| discriminate]. intros _.
    apply index_correct1 in E. destruct (substring_length_le m (String.length n) t) as [Z | L].
    + now rewrite E.
    + destruct n; [| discriminate Z]. exists ""%string, t. reflexivity.
    + destruct (substring_split m (String.length n) t L) as (a & b & Q). rewrite E in Q. now exists a, b.
  - intros (a & b & ->). destruct (String.index 0 n (a ++ n ++ b)) as [m |] eqn:E; [reflexivity |]. exfalso.
    destruct (string_dec n "") as [-> | N].
    + cbn in E. destruct (a ++ b)%string; discriminate E.
    + apply (index_correct3 0 (String.length a) _ _ E N (Nat.le_0_l _)). apply substring_mid.
Qed.

Lemma scales_passes : forall cuts bins n b1 b2 ab x, scales_b cuts bins (P2 n b1 b2 ab x) = true <->
  ~ In (n, b1, b2) bins /\ forall lo hi, assoc3 (n, b1, b2) cuts = Some (lo, hi) -> lo <= x <= hi.
Proof.
  intros cuts bins n b1 b2 ab x. cbn [scales_b]. rewrite Bool.andb_true_iff, Bool.negb_true_iff.
  assert (A : existsb (triple_eqb (n, b1, b2)) bins = false <-> ~ In (n, b1, b2) bins).
  { rewrite <- Bool.not_true_iff_false, existsb_exists. split; intros H Q; apply H.
    - exists (n, b1, b2). split; [exact Q |]. unfold triple_eqb. now rewrite String.eqb_refl, !Z.eqb_refl.
    - destruct Q as ([[n' u] v] & Hi & E). unfold triple_eqb in E. rewrite !Bool.andb_true_iff, String.eqb_eq, !Z.eqb_eq in E.
      destruct E as ((-> & ->) & ->). exact Hi. }
  rewrite A. destruct (assoc3 (n, b1, b2) cuts) as [[lo hi] |].
  - unfold outside. split; intros (H & Q); (split; [exact H |]).
    + intros lo' hi' E. injection E as <- <-. destruct (Rlt_dec x lo), (Rlt_dec hi x); try discriminate Q. lra.
    + specialize (Q lo hi eq_refl). destruct (Rlt_dec x lo), (Rlt_dec hi x); try (exfalso; lra); reflexivity.
  - split; intros (H & _); (split; [exact H |]); [intros lo hi E; discriminate E | exact (eq_refl true)].
Qed.
Lemma scale_passes : forall t lo hi n b1 b2 ab x, scale_b t lo hi (P2 n b1 b2 ab x) = true <->
  (t = "all"%string \/ substring_of n t -> lo < x < hi).
Proof.
  intros t lo hi n b1 b2 ab x. cbn [scale_b]. unfold scale_hit.
  rewrite <- contains_iff.
  assert (A : (if Rlt_dec lo x then true else false) && (if Rlt_dec x hi then true else false) = true <-> lo < x < hi).
  { destruct (Rlt_dec lo x), (Rlt_dec x hi); cbn; split; try discriminate; try (intros; lra); auto. }
  rewrite Bool.orb_true_iff, A. destruct (String.eqb_spec t "all") as [E | E]; destruct (contains n t) eqn:C; cbn;
    (split; [intros [H | H] Q; [discriminate H || (destruct Q; congruence) | exact H] | intro H]);
    try (right; apply H; auto; fail); left; reflexivity.
Qed.

Lemma keeps_ext : forall P Q f f', (forall p v, P p v <-> Q p v) -> keeps P f f' -> keeps Q f f'.
Proof. intros P Q f f' E (K & C & I). exists K. split; [exact C |]. intros k p v Hp Hv. rewrite (I k p v Hp Hv). apply E. Qed.

Lemma keep1_keeps : forall l f f', wf_file f -> run_ops (map (fun k => OScale (fst k) (fst (snd k)) (snd (snd k))) l) f = Ok f' ->
  wf_file f' /\ keeps (fun p _ => match p with P1 _ _ _ => True | P2 n _ _ _ x =>
    forall t lo hi, In (t, (lo, hi)) l -> t = "all"%string \/ substring_of n t -> lo < x < hi end) f f'.
Proof.
  induction l as [| [t [lo hi]] l IH]; intros f f' W H; cbn in H.
  - injection H as <-. split; [exact W |]. apply (keeps_ext (fun _ _ => True)); [| now apply keeps_refl].
    intros [n b1 b2 ab x | ] v; split; auto. intros _ t lo hi [].
  - apply bind_ok in H as (f1 & H1 & H). destruct (mask_scale_spec t lo hi f f1 W H1) as (W1 & K1).
    destruct (IH f1 f' W1 H) as (W2 & K2). split; [exact W2 |].
    apply (keeps_ext _ _ _ _ (fun p v => conj (fun H => H) (fun H => H))) in K1.
    pose proof (keeps_trans _ _ _ _ _ K1 K2) as K. revert K. apply keeps_ext. intros [n b1 b2 ab x | n k i] v; cbn -[scale_b].
    + rewrite scale_passes. split.
      * intros (A & B) t' lo' hi' [E | Hin]; [injection E as <- <- <-; exact A | exact (B t' lo' hi' Hin)].
      * intro A. split; [exact (A t lo hi (or_introl eq_refl)) |]. intros t' lo' hi' Hin. apply A. now right.
    + cbn. tauto.
Qed.

Lemma cuts_keeps : forall a f f', wf_file f -> a_bins a = [] -> run_ops (ops_of a) f = Ok f' ->
  wf_file f' /\ keeps (fun p _ => passes a p) f f'.
Proof.
  intros a f f' W Eb H. unfold ops_of in H. rewrite Eb in H. cbn [map app] in H.
  rewrite (run_ops_app (if a_cross a then [OCross] else [])) in H. apply bind_ok in H as (f1 & H1 & H).
  rewrite (run_ops_app (match a_pairs a with [] => [] | p => [OScales [] p] end)) in H. apply bind_ok in H as (f2 & H2 & H).
  rewrite (run_ops_app (match a_keep3 a with [] => [] | c => [OScales c []] end)) in H. apply bind_ok in H as (f3 & H3 & H).
  assert (S1 : wf_file f1 /\ keeps (fun p _ => match p with P1 _ _ _ => True | P2 _ b1 b2 _ _ => a_cross a = true -> b1 = b2 end) f f1).
  { destruct (a_cross a); cbn in H1.
    - apply bind_ok in H1 as (g & H1 & E). injection E as <-. destruct (mask_cross_spec f g W H1) as (A & B). split; [exact A |].
      revert B. apply keeps_ext. intros [n b1 b2 ab x |] v; cbn; [| tauto]. rewrite Z.eqb_eq. tauto.
    - injection H1 as <-. split; [exact W |]. apply (keeps_ext (fun _ _ => True)); [| now apply keeps_refl].
      intros [] v; split; auto; intros _; discriminate. }
  destruct S1 as (W1 & K1).
  assert (S2 : wf_file f2 /\ keeps (fun p _ => match p with P1 _ _ _ => True | P2 n b1 b2 _ _ => ~ In (n, b1, b2) (a_pairs a) end) f1 f2).
  { destruct (a_pairs a) as [| q l]; cbn -[mask_scales] in H2.
    - injection H2 as <-. split; [exact W1 |]. apply (keeps_ext (fun _ _ => True)); [| now apply keeps_refl].
      intros [] v; split; auto.
    - apply bind_ok in H2 as (g & H2 & E). injection E as <-. destruct (mask_scales_spec _ _ f1 g W1 H2) as (A & B). split; [exact A |].
      revert B. apply keeps_ext. intros [n b1 b2 ab x |] v; [| cbn; tauto]. rewrite scales_passes. split; [tauto |].
      intro N. split; [exact N |]. cbn. discriminate. }
  destruct S2 as (W2 & K2).
  assert (S3 : wf_file f3 /\ keeps (fun p _ => match p with P1 _ _ _ => True | P2 n b1 b2 _ x =>
                 forall lo hi, assoc3 (n, b1, b2) (a_keep3 a) = Some (lo, hi) -> lo <= x <= hi end) f2 f3).
  { destruct (a_keep3 a) as [| q l]; cbn -[mask_scales assoc3] in H3.
    - injection H3 as <-. split; [exact W2 |]. apply (keeps_ext (fun _ _ => True)); [| now apply keeps_refl].
      intros [] v; split; auto. cbn. discriminate.
    - apply bind_ok in H3 as (g & H3 & E). injection E as <-. destruct (mask_scales_spec _ _ f2 g W2 H3) as (A & B). split; [exact A |].
      revert B. apply keeps_ext. intros [n b1 b2 ab x |] v; [| cbn; tauto]. rewrite scales_passes. split; [tauto |].
      intro N. split; [easy | exact N]. }
  destruct S3 as (W3 & K3).
  destruct (keep1_keeps (a_keep1 a) f3 f' W3 H) as (W4 & K4). split; [exact W4 |].
  pose proof (keeps_trans _ _ _ _ _ (keeps_trans _ _ _ _ _ (keeps_trans _ _ _ _ _ K1 K2) K3) K4) as K.
  revert K. apply keeps_ext. intros [] v; cbn; tauto.
Qed.

Lemma setup_keeps : forall to_int to_float inv c items f s lc, wf_file f -> setup to_int to_float inv c items f = Ok s ->
  a_bins (o_args s) = [] -> mapr (custom_tag c) (o_stats s) = Ok lc ->
  exists f2, wf_file f2 /\ mean_vector f2 = Ok (o_data s) /\ f_cov f2 = Some (o_cov s) /\
    keeps (fun p _ => passes (o_args s) p /\ chosen_b lc p = true) f f2.
Proof.
  intros to_int to_float inv c items f s lc W H Eb El.
  apply setup_inv in H as (lc' & f1 & f2 & d & m & _ & El' & E1 & E2 & Ed & Em & -> & -> & _).
  rewrite El in El'. injection El' as <-.
  destruct (cuts_keeps _ f f1 W Eb E1) as (W1 & K1). destruct (choose_spec lc f1 f2 W1 E2) as (W2 & _ & K2 & _).
  exists f2. split; [exact W2 |]. split; [exact Ed |]. split; [exact Em |]. exact (keeps_trans _ _ _ _ _ K1 K2).
Qed.

(** ** Names of the spectra are untouched by the cuts; an index cut of an absent one is an error *)
Lemma cut_names : forall o f f', wf_file f -> label_op o -> run_op o f = Ok f' -> map sp_name (f_spectra f') = map sp_name (f_spectra f).
Proof.
  intros o f f' W L H.
  assert (G : forall step, good_step step -> cut_with step f = Ok f' -> map sp_name (f_spectra f') = map sp_name (f_spectra f)).
  { intros step G Hc. destruct (cut_with_spec step f f' W G Hc) as (l & El & _ & _ & -> & _).
    pose proof (wf_spectra f W) as Ws. revert l El Ws. generalize (f_spectra f).
    induction l as [| s sp IH]; intros l E Ws; cbn in E; [injection E as <-; reflexivity |].
    apply bind_ok in E as (q & Eq & E). apply bind_ok in E as (qs & Eqs & E). injection E as <-. inversion Ws; subst. cbn.
    rewrite (IH qs Eqs) by assumption. f_equal. pose proof (G s q ltac:(assumption) Eq) as Cs. exact (proj1 (proj2 (proj2 Cs))). }
  destruct o as [v | | c b | t lo hi | n i | sets]; cbn [run_op] in H; cbn in L; try contradiction.
  - unfold mask_cross in H. revert H. apply G. intros s q Ws Hq. destruct (masked_cuts _ _ _ Ws Hq) as (-> & C). exact C.
  - unfold mask_scales in H. revert H. apply G. intros s q Ws Hq. destruct (masked_cuts _ _ _ Ws Hq) as (-> & C). exact C.
  - unfold mask_scale in H. revert H. apply G. intros s q Ws Hq. cbn beta in Hq.
    destruct (negb (String.eqb t "all") && negb (contains (sp_name s) t)).
    + injection Hq as <-. now apply ones_cuts.
    + destruct (masked_cuts _ _ _ Ws Hq) as (-> & C). exact C.
  - unfold mask_indices in H. destruct (one_spectrum n f); [| discriminate H]. revert H. apply G. exact (idx_step_good n i).
Qed.
Lemma indices_absent : forall ops n l f, Forall label_op ops -> wf_file f -> In (OIndices n l) ops ->
  ~ In n (map sp_name (f_spectra f)) -> forall f', run_ops ops f <> Ok f'.
Proof.
  induction ops as [| o ops IH]; intros n l f L W Hin N f' H; [destruct Hin |]. cbn in H. apply bind_ok in H as (f1 & H1 & H).
  inversion L as [| ? ? Lo Lt]; subst. destruct Hin as [-> | Hin].
  - cbn in H1. destruct (mask_indices_spec n l f f1 W H1) as (_ & pre & s & post & Es & En & _). apply N. rewrite Es, map_app. cbn.
    apply in_or_app. right. now left.
  - destruct (run_op_cut o f f1 W H1) as (W1 & _). apply (IH n l f1 Lt W1 Hin) in H; [exact H |].
    now rewrite (cut_names o f f1 W Lo H1).
Qed.
Lemma assoc_in : forall {V} t (v : V) d, assoc t d = Some v -> In (t, v) d.
Proof.
  induction d as [| [k x] d IH]; cbn; [discriminate |]. destruct (String.eqb_spec t k) as [-> | N]; [| auto].
  intro E. injection E as ->. now left.
Qed.
Lemma bins_unused : forall b sec ext s g n l, theory_file b sec ext (o_stats s) = Ok g -> wf_file g ->
  In (n, l) (a_bins (o_args s)) -> ~ In n (map sp_name (f_spectra g)) -> forall t, theory_vector b sec ext s <> Ok t.
Proof.
  intros b sec ext s g n l Eg W Hin N t H. apply theory_inv in H as (g' & g1 & Eg' & E1 & _). rewrite Eg in Eg'. injection Eg' as <-.
  refine (indices_absent _ n l g (ops_of_label (o_args s)) W _ N g1 E1). unfold ops_of. rewrite !in_app_iff. right. right. left.
  apply in_map_iff. now exists (n, l).
Qed.
