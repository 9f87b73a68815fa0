(** Proofs about bnl.py: envelopes, beta, loops, lookup and tables. *)
From Coq Require Import ZArith Sorted.
From Verif Require Import Base Quad Interp Spec BaseFacts QuadFacts InterpFacts BnlModel BnlSpec IaFacts IaFacts2 BnlFacts.
Open Scope string_scope.
Open Scope R_scope.

(** ** Envelopes *)
Lemma where_in p l : forall i t, In t (where_ p i l) <-> exists u, t = (i + u)%nat /\ (u < List.length l)%nat /\ p (nth u l 0) = true.
Proof.
  induction l as [|x l IH]; intros i t; cbn [where_ List.length].
  - split; [intros []|intros (u & _ & H & _); lia].
  - assert (S1 : In t (where_ p (S i) l) <-> exists u, t = (i + S u)%nat /\ (u < List.length l)%nat /\ p (nth u l 0) = true).
    { rewrite IH. split; intros (u & E & H); exists u; (split; [lia|exact H]). }
    destruct (p x) eqn:Px; cbn [In]; rewrite S1; split.
    + intros [<-|(u & E & H1 & H2)]; [exists 0%nat; split; [lia|]; split; [lia|exact Px]|exists (S u); split; [exact E|]; split; [lia|exact H2]].
    + intros ([|u] & E & H1 & H2); [left; lia|right; exists u; split; [exact E|]; split; [lia|exact H2]].
    + intros (u & E & H1 & H2). exists (S u). split; [exact E|]; split; [lia|exact H2].
    + intros ([|u] & E & H1 & H2); [cbn [nth] in H2; congruence|exists u; split; [exact E|]; split; [lia|exact H2]].
Qed.
Lemma where_sorted p l : forall i, StronglySorted lt (where_ p i l).
Proof.
  induction l as [|x l IH]; intro i; cbn [where_]; [constructor|].
  destruct (p x); [|apply IH]. constructor; [apply IH|]. apply Forall_forall. intros t H.
  apply where_in in H as (u & -> & _). lia.
Qed.
Lemma diff_cons x y l : diff (x :: y :: l) = (y - x) :: diff (y :: l). Proof. reflexivity. Qed.
Lemma diff_length l : List.length (diff l) = (List.length l - 1)%nat.
Proof. induction l as [|x [|y l] IH]; [reflexivity..|]. rewrite diff_cons. cbn [List.length] in *. lia. Qed.
Lemma diff_nth l : forall u, (S u < List.length l)%nat -> nth u (diff l) 0 = nth (S u) l 0 - nth u l 0.
Proof.
  induction l as [|x [|y l] IH]; intros u H; [cbn [List.length] in H; lia..|].
  rewrite diff_cons. destruct u as [|u]; [reflexivity|]. cbn [nth] in *. rewrite IH by (cbn [List.length] in *; lia). reflexivity.
Qed.
Lemma sgn_0 : sgn 0 = 0. Proof. unfold sgn. destruct (Rlt_dec 0 0); [lra|reflexivity]. Qed.
Lemma second_diff l u : (u < List.length (diff (map sgn (diff l))))%nat ->
  (S (S u) < List.length l)%nat /\
  nth u (diff (map sgn (diff l))) 0 = sgn (nth (S (S u)) l 0 - nth (S u) l 0) - sgn (nth (S u) l 0 - nth u l 0).
Proof.
  intro H. rewrite diff_length, map_length, diff_length in H. split; [lia|].
  rewrite diff_nth by (rewrite map_length, diff_length; lia).
  assert (M : forall v, (S v < List.length l)%nat -> nth v (map sgn (diff l)) 0 = sgn (nth (S v) l 0 - nth v l 0)).
  { intros v Hv. rewrite <- sgn_0 at 1. now rewrite map_nth, diff_nth. }
  now rewrite !M by lia.
Qed.
Lemma local_max_iff l i : In i (local_max l) <-> is_local_max l i.
Proof.
  unfold local_max, is_local_max. rewrite in_map_iff. split.
  - intros (t & <- & H). apply where_in in H as (u & -> & L & P). destruct (second_diff l u L) as [L2 E].
    rewrite E in P. replace (0 + u + 1)%nat with (S u) by lia. replace (S u - 1)%nat with u by lia.
    split; [lia|]. split; [exact L2|]. unfold negb_ in P. destruct (Rlt_dec _ 0) as [Q|]; [|discriminate].
    unfold sgn in Q. repeat match type of Q with context [Rlt_dec ?a ?b] => destruct (Rlt_dec a b) end;
      (split; [lra|split; [lra|]]); lra.
  - intros (L1 & L2 & H1 & H2 & H3). exists (i - 1)%nat. split; [lia|]. apply where_in. exists (i - 1)%nat. split; [lia|].
    assert (L : (i - 1 < List.length (diff (map sgn (diff l))))%nat) by (rewrite diff_length, map_length, diff_length; lia).
    split; [exact L|]. destruct (second_diff l (i - 1) L) as [_ E]. rewrite E.
    replace (S (i - 1)) with i by lia.
    assert (Q : sgn (nth (S i) l 0 - nth i l 0) - sgn (nth i l 0 - nth (i - 1) l 0) < 0).
    { unfold sgn. repeat match goal with |- context [Rlt_dec ?a ?b] => destruct (Rlt_dec a b) end; lra. }
    unfold negb_. destruct (Rlt_dec _ _); [reflexivity|contradiction].
Qed.
Lemma local_min_iff l i : In i (local_min l) <-> is_local_min l i.
Proof.
  unfold local_min, is_local_min. rewrite in_map_iff. split.
  - intros (t & <- & H). apply where_in in H as (u & -> & L & P). destruct (second_diff l u L) as [L2 E].
    rewrite E in P. replace (0 + u + 1)%nat with (S u) by lia. replace (S u - 1)%nat with u by lia.
    split; [lia|]. split; [exact L2|]. unfold posb in P. destruct (Rlt_dec 0 _) as [Q|]; [|discriminate].
    unfold sgn in Q. repeat match type of Q with context [Rlt_dec ?a ?b] => destruct (Rlt_dec a b) end;
      (split; [lra|split; [lra|]]); lra.
  - intros (L1 & L2 & H1 & H2 & H3). exists (i - 1)%nat. split; [lia|]. apply where_in. exists (i - 1)%nat. split; [lia|].
    assert (L : (i - 1 < List.length (diff (map sgn (diff l))))%nat) by (rewrite diff_length, map_length, diff_length; lia).
    split; [exact L|]. destruct (second_diff l (i - 1) L) as [_ E]. rewrite E.
    replace (S (i - 1)) with i by lia.
    assert (Q : 0 < sgn (nth (S i) l 0 - nth i l 0) - sgn (nth i l 0 - nth (i - 1) l 0)).
    { unfold sgn. repeat match goal with |- context [Rlt_dec ?a ?b] => destruct (Rlt_dec a b) end; lra. }
    unfold posb. destruct (Rlt_dec _ _); [reflexivity|contradiction].
Qed.
Lemma sorted_succ l : StronglySorted lt l -> StronglySorted lt (map (fun i => (i + 1)%nat) l).
Proof.
  induction 1 as [|x l S IH F]; cbn [map]; constructor; [exact IH|].
  apply Forall_forall. intros t Ht. apply in_map_iff in Ht as (u & <- & Hu). rewrite Forall_forall in F. specialize (F u Hu). lia.
Qed.
Lemma local_max_sorted l : StronglySorted lt (local_max l).
Proof. apply sorted_succ, where_sorted. Qed.
Lemma local_min_sorted l : StronglySorted lt (local_min l).
Proof. apply sorted_succ, where_sorted. Qed.

(** argmin / argmax *)
Lemma skipn_S_tl {A} (l : list A) : forall i, skipn (S i) l = tl (skipn i l).
Proof. induction l as [|x l IH]; intros [|i]; try reflexivity. cbn [skipn] in *. apply IH. Qed.
Lemma arg_best_spec (le : R -> R -> Prop) better :
  (forall a b, better a b = true -> le a b) -> (forall a b, better a b = false -> le b a) ->
  (forall a, le a a) -> (forall a b c, le a b -> le b c -> le a c) ->
  forall l best vb i full,
    (best < i)%nat -> nth best full 0 = vb -> (forall j, (j < i)%nat -> le vb (nth j full 0)) ->
    skipn i full = l -> (i <= List.length full)%nat ->
    (arg_best better best vb i l < List.length full)%nat /\
    forall j, (j < List.length full)%nat -> le (nth (arg_best better best vb i l) full 0) (nth j full 0).
Proof.
  intros T F Rf Tr. induction l as [|x l IH]; intros best vb i full B V P S L; cbn [arg_best].
  - assert (List.length full <= i)%nat.
    { assert (E : List.length (skipn i full) = 0%nat) by now rewrite S. rewrite skipn_length in E. lia. }
    split; [lia|]. intros j Hj. rewrite V. apply P. lia.
  - assert (Li : (i < List.length full)%nat).
    { assert (E : List.length (skipn i full) = Datatypes.S (List.length l)) by now rewrite S. rewrite skipn_length in E. lia. }
    assert (X : nth i full 0 = x).
    { rewrite <- (firstn_skipn i full) at 1. rewrite app_nth2; rewrite firstn_length, Nat.min_l by lia; [|lia].
      now rewrite Nat.sub_diag, S. }
    assert (S' : skipn (Datatypes.S i) full = l).
    { rewrite skipn_S_tl, S. reflexivity. }
    destruct (better x vb) eqn:Bt.
    + apply IH; try assumption; try lia. intros j Hj. destruct (Nat.eq_dec j i) as [->|]; [rewrite X; apply Rf|].
      eapply Tr; [apply T, Bt|]. apply P. lia.
    + apply IH; try assumption; try lia. intros j Hj. destruct (Nat.eq_dec j i) as [->|]; [rewrite X; apply F, Bt|]. apply P. lia.
Qed.
Lemma argmin_spec l : l <> [] -> (argmin l < List.length l)%nat /\ forall j, (j < List.length l)%nat -> nth (argmin l) l 0 <= nth j l 0.
Proof.
  destruct l as [|x l]; [congruence|intros _]. unfold argmin.
  apply (arg_best_spec Rle ltb_).
  - intros a b. unfold ltb_. destruct (Rlt_dec a b); [lra|discriminate].
  - intros a b. unfold ltb_. destruct (Rlt_dec a b); [discriminate|lra].
  - intros a. lra.
  - intros a b c. lra.
  - lia.
  - reflexivity.
  - intros j Hj. replace j with 0%nat by lia. simpl. lra.
  - reflexivity.
  - simpl. lia.
Qed.
Lemma argmax_spec l : l <> [] -> (argmax l < List.length l)%nat /\ forall j, (j < List.length l)%nat -> nth j l 0 <= nth (argmax l) l 0.
Proof.
  destruct l as [|x l]; [congruence|intros _]. unfold argmax.
  apply (arg_best_spec (fun a b => b <= a) (fun a b => ltb_ b a)).
  - intros a b. unfold ltb_. destruct (Rlt_dec b a); [lra|discriminate].
  - intros a b. unfold ltb_. destruct (Rlt_dec b a); [discriminate|lra].
  - intros a. lra.
  - intros a b c. lra.
  - lia.
  - reflexivity.
  - intros j Hj. replace j with 0%nat by lia. simpl. lra.
  - reflexivity.
  - simpl. lia.
Qed.
Lemma chunks_0 arg data l : chunks arg data 0 l = Err "ValueError". Proof. reflexivity. Qed.
Lemma chunks_1 arg data l : (forall x, arg [x] = 0%nat) -> chunks arg data 1 l = Ok l.
Proof.
  intro A. unfold chunks. cbn [Nat.eqb]. f_equal. rewrite Nat.div_1_r. replace (List.length l + 1 - 1)%nat with (List.length l) by lia.
  transitivity (map (fun i => nth i l 0%nat) (seq 0 (List.length l))); [|symmetry; apply map_nth_seq].
  apply map_ext_in. intros c H. apply in_seq in H.
  rewrite Nat.mul_1_r.
  assert (E : exists x, firstn 1 (skipn c l) = [x]).
  { assert (L : List.length (skipn c l) <> 0%nat) by (rewrite skipn_length; lia).
    destruct (skipn c l) as [|x t]; [now destruct L|exists x; reflexivity]. }
  destruct E as [x ->]. cbn [map]. rewrite A, Nat.add_0_r. reflexivity.
Qed.
Lemma argmin_1 x : argmin [x] = 0%nat. Proof. reflexivity. Qed.
Lemma argmax_1 x : argmax [x] = 0%nat. Proof. reflexivity. Qed.
Lemma envelopes_1 data : hl_envelopes_idx data 1 1 = Ok (local_min data, local_max data).
Proof.
  unfold hl_envelopes_idx. rewrite (chunks_1 argmin) by apply argmin_1. cbn [bind].
  rewrite (chunks_1 argmax) by apply argmax_1. reflexivity.
Qed.
(** Chunk c of size d: entry c of the result is an entry of that chunk, extremal in it. *)
Lemma nth_chunk (l : list nat) i d u : (u < List.length (firstn d (skipn i l)))%nat ->
  nth u (firstn d (skipn i l)) 0%nat = nth (i + u) l 0%nat /\ (u < d)%nat /\ (i + u < List.length l)%nat.
Proof.
  intro H. rewrite firstn_length, skipn_length in H. split; [|lia].
  assert (N : forall (a : list nat) n m, (n < m)%nat -> nth n (firstn m a) 0%nat = nth n a 0%nat).
  { induction a as [|z a IHa]; intros n m Hnm; [now destruct n, m|destruct m; [lia|]; destruct n; [reflexivity|]].
    cbn [firstn nth]. apply IHa. lia. }
  rewrite N by lia. rewrite <- (firstn_skipn i l) at 2. rewrite app_nth2; rewrite firstn_length, Nat.min_l by lia; [|lia].
  f_equal. lia.
Qed.
Lemma chunks_spec (arg : list R -> nat) (le : R -> R -> Prop) data d l out :
  (forall q, q <> [] -> (arg q < List.length q)%nat /\ forall j, (j < List.length q)%nat -> le (nth (arg q) q 0) (nth j q 0)) ->
  chunks arg data d l = Ok out ->
  (0 < d)%nat /\ List.length out = ((List.length l + d - 1) / d)%nat /\
  forall c, (c < List.length out)%nat -> exists u, (c * d <= u)%nat /\ (u < Nat.min (S c * d) (List.length l))%nat /\
    nth c out 0%nat = nth u l 0%nat /\
    forall j, (c * d <= j)%nat -> (j < Nat.min (S c * d) (List.length l))%nat ->
      le (nth (nth c out 0%nat) data 0) (nth (nth j l 0%nat) data 0).
Proof.
  intros A H. unfold chunks in H. destruct (Nat.eqb_spec d 0) as [->|D]; [discriminate|]. injection H as <-.
  split; [lia|]. rewrite map_length, seq_length. split; [reflexivity|]. intros c Hc.
  assert (C : (c * d < List.length l)%nat).
  { pose proof (Nat.mul_div_le (List.length l + d - 1) d D). nia. }
  match goal with |- context [map ?h (seq 0 _)] => set (g := h) end. rewrite (nth_indep _ 0%nat (g 0%nat)) by (rewrite map_length, seq_length; exact Hc).
  rewrite (map_nth g), seq_nth by exact Hc. cbn [Nat.add]. unfold g. clear g.
  set (ch := firstn d (skipn (c * d) l)). set (q := map (fun t => nth t data 0) ch).
  assert (LC : List.length ch = Nat.min d (List.length l - c * d)) by (unfold ch; rewrite firstn_length, skipn_length; reflexivity).
  assert (LQ : List.length q = List.length ch) by (unfold q; apply map_length).
  assert (NQ : q <> []) by (intro E; rewrite E in LQ; cbn in LQ; lia).
  destruct (A q NQ) as [A1' A2']. rewrite LQ in A1', A2'.
  assert (G : forall u, (u < List.length ch)%nat -> nth u q 0 = nth (nth (c * d + u) l 0%nat) data 0).
  { intros u Hu. unfold q. set (h := fun t => nth t data 0).
    rewrite (nth_indep _ 0 (h 0%nat)) by (rewrite map_length; exact Hu). rewrite (map_nth h). unfold h.
    f_equal. unfold ch in *. destruct (nth_chunk l (c * d) d u Hu) as [E _]. exact E. }
  exists (c * d + arg q)%nat. split; [lia|]. split; [cbn [Nat.mul]; lia|]. split; [reflexivity|].
  intros j Hj1 Hj2. rewrite <- G by exact A1'. replace j with (c * d + (j - c * d))%nat by lia.
  rewrite <- G by (cbn [Nat.mul] in Hj2; lia). apply A2'. cbn [Nat.mul] in Hj2; lia.
Qed.

(** ** beta *)
Section Beta.
  Variables (phh : R -> R -> R -> R) (plin : R -> R) (quadratic : list R -> list R -> res (R -> R)).
  (** The interpolation nodes are exactly the local maxima of |1 + beta|. *)
  Lemma beta_form ks kmax m1 m2 f : beta_final phh plin quadratic ks kmax m1 m2 = Ok f ->
    let data := map (fun k => Rabs (raw_beta phh plin ks m1 m2 k + 1)) ks in
    exists g idx, quadratic (map (fun i => nth i ks 0) idx) (map (fun i => nth i data 0) idx) = Ok g /\
      (forall i, In i idx <-> is_local_max data i) /\ StronglySorted lt idx /\
      forall k, f k = (g k - g (5 / 100)) * low_k_truncation k (5 / 100) * high_k_truncation k (3 * kmax).
  Proof.
    intros H data. unfold beta_final in H. rewrite envelopes_1 in H. cbn [bind snd] in H. fold data in H.
    destruct (quadratic _ _) as [g|] eqn:Q; cbn [bind] in H; [|discriminate]. injection H as <-.
    exists g, (local_max data). split; [exact Q|]. split; [intro; apply local_max_iff|]. split; [apply local_max_sorted|].
    intro k. unfold klin. ring.
  Qed.
  Lemma beta_klin ks kmax m1 m2 f : beta_final phh plin quadratic ks kmax m1 m2 = Ok f -> f (5 / 100) = 0.
  Proof. intro H. destruct (beta_form _ _ _ _ _ H) as (g & i & _ & _ & _ & E). rewrite E. ring. Qed.
  Lemma mean_scale a l : mean (map (fun x => a * x) l) = a * mean l.
  Proof.
    unfold mean. rewrite map_length. unfold Rdiv. rewrite <- Rmult_assoc. f_equal.
    induction l as [|x l IH]; cbn [map fold_right]; [ring|]. rewrite IH. ring.
  Qed.
  (** Calibration of the emulator's amplitude drops out. *)
  Lemma raw_beta_scale (A : R -> R) c ks m1 m2 k : 0 < A m1 -> 0 < A m2 -> 0 < c ->
    0 < phh (5 / 100) m1 m1 -> 0 < phh (5 / 100) m2 m2 -> 0 < plin (5 / 100) -> 0 < plin k ->
    raw_beta (fun k a b => A a * A b * phh k a b) (fun k => c * plin k) ks m1 m2 k = raw_beta phh plin ks m1 m2 k.
  Proof.
    intros A1 A2 C P1 P2 L Lk. unfold raw_beta.
    assert (S : shot (fun k a b => A a * A b * phh k a b) ks m1 m2 = A m1 * A m2 * shot phh ks m1 m2).
    { unfold shot. rewrite <- mean_scale, map_map. reflexivity. }
    assert (B : forall m, 0 < A m -> 0 < phh (5 / 100) m m ->
              b01 (fun k a b => A a * A b * phh k a b) (fun k => c * plin k) m = A m / sqrt c * b01 phh plin m).
    { intros m HA HP. unfold b01, klin.
      replace (A m * A m * phh (5 / 100) m m / (c * plin (5 / 100)))
        with ((A m * A m) / c * (phh (5 / 100) m m / plin (5 / 100))) by (field; lra).
      rewrite sqrt_mult_alt; [|left; apply Rdiv_lt_0_compat; [nra|lra]].
      rewrite sqrt_div_alt by lra. rewrite sqrt_square by lra. reflexivity. }
    assert (BP : forall m, 0 < phh (5 / 100) m m -> 0 < b01 phh plin m).
    { intros m HP. unfold b01, klin. apply sqrt_lt_R0. now apply Rdiv_lt_0_compat. }
    rewrite S, (B m1), (B m2) by assumption. pose proof (BP m1 P1). pose proof (BP m2 P2).
    pose proof (sqrt_lt_R0 c C). pose proof (sqrt_sqrt c (Rlt_le _ _ C)) as SS.
    set (q := sqrt c) in *. rewrite <- SS. field. lra.
  Qed.
End Beta.
Lemma beta_final_ext phh phh' plin plin' quad ks kmax m1 m2 :
  (forall k, In k ks -> raw_beta phh' plin' ks m1 m2 k = raw_beta phh plin ks m1 m2 k) ->
  beta_final phh' plin' quad ks kmax m1 m2 = beta_final phh plin quad ks kmax m1 m2.
Proof.
  intro H. unfold beta_final.
  assert (E : map (fun k => Rabs (raw_beta phh' plin' ks m1 m2 k + 1)) ks = map (fun k => Rabs (raw_beta phh plin ks m1 m2 k + 1)) ks).
  { apply map_ext_in. intros k Hk. now rewrite H. }
  now rewrite E.
Qed.
Lemma beta_scale phh plin quad A c ks kmax m1 m2 : 0 < A m1 -> 0 < A m2 -> 0 < c ->
  0 < phh (5 / 100) m1 m1 -> 0 < phh (5 / 100) m2 m2 -> 0 < plin (5 / 100) -> (forall k, In k ks -> 0 < plin k) ->
  beta_final (fun k a b => A a * A b * phh k a b) (fun k => c * plin k) quad ks kmax m1 m2
  = beta_final phh plin quad ks kmax m1 m2.
Proof. intros. apply beta_final_ext. intros. apply raw_beta_scale; auto. Qed.
(** A purely linear halo-halo power b(m1) b(m2) P_lin(k): beta is minus the mean high-k
    linear power (taken for shot noise) over the linear power. *)
Lemma raw_beta_linear (bias : R -> R) plin ks m1 m2 k :
  0 < bias m1 -> 0 < bias m2 -> 0 < plin (5 / 100) -> 0 < plin k ->
  raw_beta (fun k a b => bias a * bias b * plin k) plin ks m1 m2 k
  = - (mean (map plin (filter hk_mask ks)) / plin k).
Proof.
  intros B1 B2 L Lk. unfold raw_beta, shot.
  rewrite <- (map_map plin (fun y => bias m1 * bias m2 * y)), mean_scale.
  assert (B : forall m, 0 < bias m -> b01 (fun k a b => bias a * bias b * plin k) plin m = bias m).
  { intros m Hm. unfold b01, klin. replace (bias m * bias m * plin (5 / 100) / plin (5 / 100)) with (bias m * bias m) by (field; lra).
    apply sqrt_square. lra. }
  rewrite !B by assumption. field. lra.
Qed.

(** ** Loops *)
Lemma inner_spec {A} (b : nat -> nat -> res A) i js : NoDup js -> forall t t', inner b i js t = Ok t' ->
  (forall j, In j js -> exists v, b i j = Ok v /\ t' i j = v /\ t' j i = v) /\
  (forall a c, ~ (a = i /\ In c js) -> ~ (c = i /\ In a js) -> t' a c = t a c).
Proof.
  induction 1 as [|j js NI ND IH]; intros t t' H; cbn [inner] in H.
  - injection H as <-. split; [intros j []|auto].
  - destruct (b i j) as [v|] eqn:B; cbn [bind] in H; [|discriminate].
    destruct (IH _ _ H) as [I1 I2].
    set (t1 := set2 t i j v) in *. set (t2 := if Nat.eqb j i then t1 else set2 t1 j i v) in *.
    assert (T2 : forall a c, t2 a c = if (Nat.eqb a i && Nat.eqb c j) || (Nat.eqb a j && Nat.eqb c i) then v else t a c).
    { intros a c. unfold t2, t1, set2. destruct (Nat.eqb_spec j i) as [->|N].
      - destruct (Nat.eqb_spec a i), (Nat.eqb_spec c i); reflexivity.
      - destruct (Nat.eqb_spec a i), (Nat.eqb_spec c j), (Nat.eqb_spec a j), (Nat.eqb_spec c i); reflexivity. }
    split.
    + intros u [<-|Hu]; [|exact (I1 u Hu)].
      assert (X : ~ (i = i /\ In j js)) by tauto.
      destruct (in_dec Nat.eq_dec i js) as [Ii|Ni].
      * destruct (Nat.eq_dec j i) as [->|N]; [tauto|]. exists v. split; [exact B|]. split.
        -- rewrite I2 by (try tauto; intros [E _]; congruence). rewrite T2, !Nat.eqb_refl. reflexivity.
        -- rewrite I2 by (try tauto; intros [E _]; congruence). rewrite T2, !Nat.eqb_refl. now rewrite orb_true_r.
      * exists v. split; [exact B|]. split; (rewrite I2 by tauto; rewrite T2, !Nat.eqb_refl; try rewrite orb_true_r; reflexivity).
    + intros a c H1 H2. cbn [In] in *. rewrite I2 by tauto. rewrite T2.
      destruct (Nat.eqb_spec a i), (Nat.eqb_spec c j), (Nat.eqb_spec a j), (Nat.eqb_spec c i); cbn; try reflexivity; exfalso; subst; tauto.
Qed.
Lemma inner_ok {A} (b : nat -> nat -> res A) i js : forall t,
  (exists t', inner b i js t = Ok t') <-> (forall j, In j js -> exists v, b i j = Ok v).
Proof.
  induction js as [|j js IH]; intro t; cbn [inner].
  - split; [intros _ j []|eauto].
  - destruct (b i j) as [v|] eqn:B; cbn [bind].
    + rewrite IH. split; [intros H u [<-|Hu]; eauto|intros H u Hu; apply H; now right].
    + split; [intros [? H]; discriminate|intro H; destruct (H j (or_introl eq_refl)) as [v E]; congruence].
Qed.
Lemma outer_spec {A} (b : nat -> nat -> res A) n is : NoDup is -> forall t t', outer b n is t = Ok t' ->
  (forall a c, In a is -> (a <= c < n)%nat -> exists v, b a c = Ok v /\ t' a c = v /\ t' c a = v) /\
  (forall a c, (a <= c)%nat -> ~ In a is -> t' a c = t a c /\ t' c a = t c a).
Proof.
  induction 1 as [|i is NI ND IH]; intros t t' H; cbn [outer] in H.
  - injection H as <-. split; [intros a c []|auto].
  - destruct (inner b i (seq i (n - i)) t) as [t1|] eqn:E; cbn [bind] in H; [|discriminate].
    destruct (IH _ _ H) as [I1 I2]. destruct (inner_spec b i _ (seq_NoDup _ _) _ _ E) as [J1 J2]. split.
    + intros a c [<-|Ha] Hc; [|exact (I1 a c Ha Hc)].
      destruct (J1 c) as (v & Bv & E1 & E2); [apply in_seq; lia|]. exists v. split; [exact Bv|].
      destruct (I2 i c) as [K1 K2]; [lia|exact NI|]. rewrite K1, K2. split; assumption.
    + intros a c L Ha. cbn [In] in Ha. destruct (I2 a c L ltac:(tauto)) as [K1 K2]. rewrite K1, K2.
      split; apply J2; rewrite ?in_seq; intros [? ?]; subst; try tauto; lia.
Qed.
Lemma outer_ok {A} (b : nat -> nat -> res A) n is : forall t,
  (exists t', outer b n is t = Ok t') <-> (forall i j, In i is -> (i <= j < n)%nat -> exists v, b i j = Ok v).
Proof.
  induction is as [|i is IH]; intro t; cbn [outer].
  - split; [intros _ i j []|eauto].
  - destruct (inner b i (seq i (n - i)) t) as [t1|] eqn:E; cbn [bind].
    + rewrite IH. split.
      * intros H a j [<-|Ha] Hj; [|exact (H a j Ha Hj)].
        apply (proj1 (inner_ok b i (seq i (n - i)) t) (ex_intro _ _ E)). apply in_seq. lia.
      * intros H a j Ha. apply H. now right.
    + split; [intros [? H]; discriminate|]. intro H. exfalso.
      destruct (proj2 (inner_ok b i (seq i (n - i)) t)) as [t' E']; [|congruence].
      intros j Hj. apply in_seq in Hj. apply H; [now left|lia].
Qed.

Lemma darkquest_entry phh plin quad lM ks kmax t : compute_bnl_darkquest phh plin quad lM ks kmax = Ok t ->
  forall a c, (a < List.length lM)%nat -> (c < List.length lM)%nat ->
  exists f, beta_final phh plin quad ks kmax (pow10 (nth (Nat.min a c) lM 0)) (pow10 (nth (Nat.max a c) lM 0)) = Ok f /\
    forall ik, t a c ik = f (nth ik ks 0).
Proof.
  unfold compute_bnl_darkquest. intros H a c Ha Hc. rewrite map_length in *.
  match type of H with context [outer ?b _ _ _] => set (B := b) in * end.
  destruct (outer B _ _ _) as [t1|] eqn:E; cbn [bind] in H; [|discriminate]. injection H as <-.
  destruct (outer_spec B _ _ (seq_NoDup _ _) _ _ E) as [I _].
  assert (NP : forall i, (i < List.length lM)%nat -> nth i (map pow10 lM) 0 = pow10 (nth i lM 0)).
  { intros i Hi. rewrite (nth_indep _ 0 (pow10 0)) by (rewrite map_length; exact Hi). apply map_nth. }
  destruct (I (Nat.min a c) (Nat.max a c)) as (v & Bv & E1 & E2); [apply in_seq; lia|lia|].
  unfold B in Bv. rewrite !NP in Bv by lia.
  destruct (beta_final _ _ _ _ _ _ _) as [f|]; cbn [bind] in Bv; [|discriminate]. injection Bv as <-.
  exists f. split; [reflexivity|]. intro ik.
  destruct (Nat.le_ge_cases a c) as [L|L].
  - rewrite Nat.min_l, Nat.max_r in E1 by exact L. now rewrite E1.
  - rewrite Nat.min_r, Nat.max_l in E2 by exact L. now rewrite E2.
Qed.
Lemma darkquest_ok phh plin quad lM ks kmax : 
  (exists t, compute_bnl_darkquest phh plin quad lM ks kmax = Ok t) <->
  (forall i j, (i <= j)%nat -> (j < List.length lM)%nat ->
     exists f, beta_final phh plin quad ks kmax (pow10 (nth i lM 0)) (pow10 (nth j lM 0)) = Ok f).
Proof.
  unfold compute_bnl_darkquest. rewrite map_length.
  match goal with |- context [outer ?b _ _ _] => set (B := b) in * end.
  assert (NP : forall i, (i < List.length lM)%nat -> nth i (map pow10 lM) 0 = pow10 (nth i lM 0)).
  { intros i Hi. rewrite (nth_indep _ 0 (pow10 0)) by (rewrite map_length; exact Hi). apply map_nth. }
  assert (Q : forall i j, (i <= j)%nat -> (j < List.length lM)%nat -> (exists v, B i j = Ok v) <->
     exists f, beta_final phh plin quad ks kmax (pow10 (nth i lM 0)) (pow10 (nth j lM 0)) = Ok f).
  { intros i j L1 L2. unfold B. rewrite !NP by lia. destruct (beta_final _ _ _ _ _ _ _); cbn [bind]; split; intros [? X]; try discriminate; eauto. }
  set (t0 := fun _ _ _ => 0).
  assert (O := outer_ok B (List.length lM) (seq 0 (List.length lM)) t0).
  split.
  - intros [t H] i j L1 L2. apply Q; try assumption. apply (proj1 O); [|apply in_seq; lia|lia].
    destruct (outer _ _ _ _) as [t1|]; [eauto|discriminate].
  - intro H. destruct (proj2 O) as [t E].
    + intros i j Hi Hj. apply in_seq in Hi. apply Q; [lia|lia|]. apply H; lia.
    + rewrite E. cbn [bind]. eauto.
Qed.

(** ** Nearest lookup *)
Lemma nearest_spec n x q : (2 <= n)%nat -> incr n x ->
  (nearest n x q < n)%nat /\ forall i, (i < n)%nat -> Rabs (q - x (nearest n x q)) <= Rabs (q - x i).
Proof.
  intros Hn Hi. unfold nearest.
  destruct (bracket n x q Hi ltac:(lia)) as [H|[H|(j & Hj & H1 & H2)]].
  - rewrite (searchsorted_count n x q 0); try lia.
    2:{ intros i _ Hl. pose proof (incr_le n x 0 i Hi ltac:(lia) Hl). lra. }
    unfold clip_idx. replace (Nat.min (Nat.max 1 0) (n - 1)) with 1%nat by lia. cbn [Nat.sub].
    pose proof (Hi 0%nat ltac:(lia)) as P.
    destruct (Rle_dec _ _) as [_|N].
    + split; [lia|]. intros i Hl. pose proof (incr_le n x 0 i Hi ltac:(lia) Hl).
      rewrite !Rabs_left1 by lra. lra.
    + exfalso. apply N. apply Rmult_le_reg_r with (x 1%nat - x 0%nat); [lra|]. unfold Rdiv. rewrite Rmult_assoc, Rinv_l by lra. lra.
  - rewrite (searchsorted_count n x q n); try lia.
    2:{ intros i Hl. pose proof (incr_le n x i (n - 1) Hi ltac:(lia) ltac:(lia)). lra. }
    unfold clip_idx. replace (Nat.min (Nat.max 1 n) (n - 1)) with (n - 1)%nat by lia.
    pose proof (incr_lt n x (n - 1 - 1) (n - 1) Hi ltac:(lia) ltac:(lia)) as P.
    destruct (Rle_dec _ _) as [N|_].
    + exfalso. apply Rmult_le_compat_r with (r := x (n - 1)%nat - x (n - 1 - 1)%nat) in N; [|lra].
      unfold Rdiv in N. rewrite Rmult_assoc, Rinv_l in N by lra. lra.
    + split; [lia|]. intros i Hl. pose proof (incr_le n x i (n - 1) Hi ltac:(lia) ltac:(lia)).
      rewrite !Rabs_right by lra. lra.
  - rewrite (searchsorted_count n x q (S j)); try lia.
    2:{ intros i Hl. pose proof (incr_le n x i j Hi ltac:(lia) ltac:(lia)). lra. }
    2:{ intros i Hg Hl. pose proof (incr_le n x (S j) i Hi ltac:(lia) Hl). lra. }
    unfold clip_idx. replace (Nat.min (Nat.max 1 (S j)) (n - 1)) with (S j) by lia. replace (S j - 1)%nat with j by lia.
    pose proof (Hi j Hj) as P.
    assert (D : (q - x j) / (x (S j) - x j) * (x (S j) - x j) = q - x j) by (field; lra).
    destruct (Rle_dec _ _) as [N|N].
    + apply Rmult_le_compat_r with (r := x (S j) - x j) in N; [|lra]. rewrite D in N.
      split; [lia|]. intros i Hl. rewrite (Rabs_right (q - x j)) by lra.
      destruct (le_lt_dec i j) as [L|L].
      * pose proof (incr_le n x i j Hi L ltac:(lia)). rewrite Rabs_right by lra. lra.
      * pose proof (incr_le n x (S j) i Hi ltac:(lia) Hl). rewrite Rabs_left1 by lra. lra.
    + apply Rnot_le_lt in N. apply Rmult_lt_compat_r with (r := x (S j) - x j) in N; [|lra]. rewrite D in N.
      split; [lia|]. intros i Hl. rewrite (Rabs_left1 (q - x (S j))) by lra.
      destruct (le_lt_dec i j) as [L|L].
      * pose proof (incr_le n x i j Hi L ltac:(lia)). rewrite Rabs_right by lra. lra.
      * pose proof (incr_le n x (S j) i Hi ltac:(lia) Hl). rewrite Rabs_left1 by lra. lra.
Qed.
Lemma incr_inj n x i j : incr n x -> (i < n)%nat -> (j < n)%nat -> x i = x j -> i = j.
Proof.
  intros H Hi Hj E. destruct (lt_eq_lt_dec i j) as [[L|L]|L]; [|exact L|];
    [pose proof (incr_lt n x i j H L Hj)|pose proof (incr_lt n x j i H L Hi)]; lra.
Qed.
Lemma nearest_node n x i : (2 <= n)%nat -> incr n x -> (i < n)%nat -> nearest n x (x i) = i.
Proof.
  intros Hn Hi L. destruct (nearest_spec n x (x i) Hn Hi) as [A B]. specialize (B i L).
  rewrite (Rminus_diag_eq (x i) (x i) eq_refl), Rabs_R0 in B.
  assert (Z : Rabs (x i - x (nearest n x (x i))) = 0) by (pose proof (Rabs_pos (x i - x (nearest n x (x i)))); lra).
  apply (incr_inj n x); try assumption. destruct (Req_dec (x i - x (nearest n x (x i))) 0) as [E|E]; [lra|].
  apply Rabs_no_R0 in E. contradiction.
Qed.
Lemma nearest_below n x q : (2 <= n)%nat -> incr n x -> q <= x 0%nat -> nearest n x q = 0%nat.
Proof.
  intros Hn Hi H. destruct (nearest_spec n x q Hn Hi) as [A B]. specialize (B 0%nat ltac:(lia)).
  destruct (Nat.eq_dec (nearest n x q) 0) as [E|E]; [exact E|].
  pose proof (incr_lt n x 0 (nearest n x q) Hi ltac:(lia) A). rewrite !Rabs_left1 in B by lra. lra.
Qed.
Lemma nearest_above n x q : (2 <= n)%nat -> incr n x -> x (n - 1)%nat <= q -> nearest n x q = (n - 1)%nat.
Proof.
  intros Hn Hi H. destruct (nearest_spec n x q Hn Hi) as [A B]. specialize (B (n - 1)%nat ltac:(lia)).
  destruct (Nat.eq_dec (nearest n x q) (n - 1)) as [E|E]; [exact E|].
  pose proof (incr_lt n x (nearest n x q) (n - 1) Hi ltac:(lia) ltac:(lia)). rewrite !Rabs_right in B by lra. lra.
Qed.

(** ** Table *)
Lemma combine_app {A B} (a a' : list A) (b b' : list B) : List.length a = List.length b ->
  combine (a ++ a') (b ++ b') = (combine a b ++ combine a' b')%list.
Proof.
  revert b. induction a as [|x a IH]; intros [|y b] H; try discriminate; [reflexivity|]. cbn. f_equal. apply IH. now injection H.
Qed.
Lemma np_repeat_length {A} (l : list A) n : List.length (np_repeat l n) = (List.length l * n)%nat.
Proof. induction l as [|x l IH]; [reflexivity|]. cbn. rewrite app_length, repeat_length. fold (np_repeat l n). rewrite IH. lia. Qed.
Lemma np_tile_length {A} (l : list A) n : List.length (np_tile l n) = (n * List.length l)%nat.
Proof. induction n as [|n IH]; [reflexivity|]. unfold np_tile in *. cbn. rewrite app_length, IH. lia. Qed.
Lemma np_tile_add {A} (l : list A) n m : np_tile l (n + m) = (np_tile l n ++ np_tile l m)%list.
Proof. unfold np_tile. now rewrite repeat_app, concat_app. Qed.
Lemma repeat_add {A} (x : A) n m : repeat x (n + m) = (repeat x n ++ repeat x m)%list.
Proof. apply repeat_app. Qed.
Definition block {A B C} (x : list A) (y : list B) (z : list C) : list (A * (B * C)) :=
  flat_map (fun c => flat_map (fun a => map (fun b => (a, (b, c))) y) x) z.
Lemma combine_row {A B C} (a : A) (c : C) (y : list B) :
  combine (repeat a (List.length y)) (combine y (repeat c (List.length y))) = map (fun b => (a, (b, c))) y.
Proof. induction y as [|b y IH]; [reflexivity|]. cbn. now rewrite IH. Qed.
Lemma combine_plane {A B C} (x : list A) (y : list B) (c : C) :
  combine (np_repeat x (List.length y)) (combine (np_tile y (List.length x)) (repeat c (List.length x * List.length y)))
  = flat_map (fun a => map (fun b => (a, (b, c))) y) x.
Proof.
  induction x as [|a x IH]; [reflexivity|]. cbn [List.length Nat.mul flat_map].
  change (np_repeat (a :: x) (List.length y)) with (repeat a (List.length y) ++ np_repeat x (List.length y))%list.
  change (np_tile y (S (List.length x))) with (y ++ np_tile y (List.length x))%list.
  rewrite repeat_add, (combine_app y) by now rewrite repeat_length.
  rewrite combine_app by (rewrite combine_length, !repeat_length; lia). now rewrite IH, combine_row.
Qed.
Lemma combine_block {A B C} (x : list A) (y : list B) (z : list C) :
  let n := List.length x in let m := List.length y in let p := List.length z in
  combine (np_tile (np_repeat x m) p) (combine (np_tile y (n * p)) (np_repeat z (n * m))) = block x y z.
Proof.
  cbv zeta. induction z as [|c z IH].
  - cbn [List.length]. unfold np_tile at 1. reflexivity.
  - cbn [List.length]. unfold block. cbn [flat_map]. fold (block x y z). rewrite <- IH, <- combine_plane.
    change (np_tile (np_repeat x (List.length y)) (S (List.length z)))
      with (np_repeat x (List.length y) ++ np_tile (np_repeat x (List.length y)) (List.length z))%list.
    change (np_repeat (c :: z) (List.length x * List.length y))
      with (repeat c (List.length x * List.length y) ++ np_repeat z (List.length x * List.length y))%list.
    rewrite Nat.mul_succ_r, Nat.add_comm, np_tile_add.
    rewrite (combine_app (np_tile y (List.length x))) by (rewrite np_tile_length, repeat_length; reflexivity).
    rewrite combine_app; [reflexivity|].
    rewrite combine_length, np_repeat_length, np_tile_length, repeat_length. lia.
Qed.
Lemma combine_rot {A B C} (a : list A) : forall (b : list B) (c : list C),
  combine c (combine a b) = map (fun v => (snd (snd v), (fst v, fst (snd v)))) (combine a (combine b c)).
Proof.
  induction a as [|x a IH]; intros [|y b] [|z c]; try reflexivity. cbn. now rewrite IH.
Qed.
Lemma block_map {A B C A' B' C'} (f : A -> A') (g : B -> B') (h : C -> C') x y z :
  block (map f x) (map g y) (map h z) = map (fun v => (f (fst v), (g (fst (snd v)), h (snd (snd v))))) (block x y z).
Proof.
  unfold block. induction z as [|c z IH]; [reflexivity|]. cbn [map flat_map]. rewrite map_app, <- IH. f_equal.
  clear IH. induction x as [|a x IHx]; [reflexivity|]. cbn [map flat_map]. rewrite map_app, <- IHx. f_equal.
  rewrite !map_map. reflexivity.
Qed.
Lemma block_in {A B C} (x : list A) (y : list B) (z : list C) a b c :
  In a x -> In b y -> In c z -> In (a, (b, c)) (block x y z).
Proof.
  intros Ha Hb Hc. unfold block. apply in_flat_map. exists c. split; [exact Hc|].
  apply in_flat_map. exists a. split; [exact Ha|]. apply in_map_iff. eauto.
Qed.
Lemma combine_map_both {A B C} (f : A -> B) (g : A -> C) l : combine (map f l) (map g l) = map (fun v => (f v, g v)) l.
Proof. induction l as [|a l IH]; [reflexivity|]. cbn. now rewrite IH. Qed.
(** Assigning a function of the index stores that function at every listed index. *)
Lemma fancy_set_fun {A} (val : nat -> nat -> nat -> A) : forall (l : list (nat * (nat * nat))) t k i j,
  In (i, (j, k)) l \/ t k i j = val k i j ->
  fancy_set t (map (fun v => (snd (snd v), (fst v, fst (snd v)))) l)
    (map (fun v => val (snd (snd v)) (fst v) (fst (snd v))) l) k i j = val k i j.
Proof.
  intro l. unfold fancy_set. rewrite combine_map_both.
  induction l as [|(i0 & j0 & k0) l IH]; intros t k i j H; cbn [map fold_left].
  - destruct H as [[]|H]. exact H.
  - apply IH. cbn [In] in H. unfold set3. cbn [fst snd].
    destruct (Nat.eqb_spec k k0) as [->|Nk]; destruct (Nat.eqb_spec i i0) as [->|Ni]; destruct (Nat.eqb_spec j j0) as [->|Nj];
      cbn [andb]; try (right; reflexivity);
      (destruct H as [[E|H]|H]; [inversion E; congruence|left; exact H|right; exact H]).
Qed.
Lemma bnl_table_entry f mass ks k i j : (k < List.length ks)%nat -> (i < List.length mass)%nat -> (j < List.length mass)%nat ->
  bnl_table f mass ks k i j = f (log10 (nth i mass 0)) (log10 (nth j mass 0)) (log10 (nth k ks 0)).
Proof.
  intros Hk Hi Hj. unfold bnl_table.
  set (x := map log10 mass). set (z := map log10 ks).
  rewrite combine_block. cbv zeta.
  set (n := List.length x). set (p := List.length z).
  assert (L1 : n = List.length mass) by apply map_length. assert (L2 : p = List.length ks) by apply map_length.
  pose proof (combine_block (seq 0 n) (seq 0 n) (seq 0 p)) as CB. cbv zeta in CB. rewrite !seq_length in CB.
  rewrite combine_rot, CB.
  assert (X : x = map (fun i => log10 (nth i mass 0)) (seq 0 n)).
  { unfold x. rewrite L1. rewrite (map_nth_seq 0 mass) at 1. now rewrite map_map. }
  assert (Z : z = map (fun i => log10 (nth i ks 0)) (seq 0 p)).
  { unfold z. rewrite L2. rewrite (map_nth_seq 0 ks) at 1. now rewrite map_map. }
  rewrite X, Z at 1. rewrite X. rewrite block_map, map_map.
  pose proof (fancy_set_fun (fun k i j => f (log10 (nth i mass 0)) (log10 (nth j mass 0)) (log10 (nth k ks 0)))
    (block (seq 0 n) (seq 0 n) (seq 0 p)) (fun _ _ _ => 0) k i j) as F.
  cbn [fst snd] in *. apply F. left. apply block_in; apply in_seq; lia.
Qed.
Lemma map_res_spec {A B} (f : A -> res B) l : forall out, map_res f l = Ok out <-> Forall2 (fun x y => f x = Ok y) l out.
Proof.
  induction l as [|x l IH]; intro out; cbn [map_res].
  - split; [intro H; injection H as <-; constructor|intro H; inversion H; reflexivity].
  - destruct (f x) as [y|] eqn:E; cbn [bind].
    + destruct (map_res f l) as [t|] eqn:M; cbn [bind].
      * split.
        -- intro H. injection H as <-. constructor; [exact E|]. now apply IH.
        -- intro H. inversion H as [|? y' ? t' H1 H2]; subst. apply IH in H2. congruence.
      * split; [discriminate|]. intro H. inversion H as [|? y' ? t' H1 H2]; subst. apply IH in H2. congruence.
    + split; [discriminate|]. intro H. inversion H as [|? y' ? t' H1 H2]; subst. congruence.
Qed.
Lemma bnl_z build z_vec mass ks ts : bnl build true z_vec mass ks = Ok ts <->
  exists fs, Forall2 (fun z f => build z = Ok f) z_vec fs /\ ts = map (fun f => bnl_table f mass ks) fs.
Proof.
  unfold bnl. destruct (map_res build z_vec) as [fs|] eqn:M; cbn [bind].
  - apply map_res_spec in M. split.
    + intro H. injection H as <-. eauto.
    + intros (fs' & H & ->). f_equal. apply map_res_spec in H. apply map_res_spec in M. congruence.
  - split; [discriminate|]. intros (fs & H & _). apply map_res_spec in H. congruence.
Qed.
Lemma bnl_const build z_vec mass ks ts : bnl build false z_vec mass ks = Ok ts <->
  exists f, build (1 / 100) = Ok f /\ ts = [bnl_table f mass ks].
Proof.
  unfold bnl. destruct (build (1 / 100)) as [f|]; cbn [bind].
  - split; [intro H; injection H as <-; eauto|intros (g & H & ->); injection H as <-; reflexivity].
  - split; [discriminate|intros (g & H & _); discriminate].
Qed.

(** ** Grids and the interpolation function *)
Lemma build_sym phh plin quad Om z f : build_interp phh plin quad Om z = Ok f -> forall x y w,
  f x y w = f y x w.
Proof.
  unfold build_interp. destruct (compute_bnl_darkquest _ _ _ _ _ _) as [t|] eqn:E; cbn [bind]; [|discriminate].
  intro H. injection H as <-. intros x y w. unfold rgi_nearest.
  assert (N : forall q, (nearest lenM (fun i => log10 (grid_M Om i)) q < 5)%nat).
  { intro q. unfold nearest, lenM, clip_idx. destruct (Rle_dec _ _); lia. }
  set (a := nearest lenM _ x). set (c := nearest lenM _ y). set (ik := nearest lenk _ w).
  assert (Ha : (a < 5)%nat) by apply N. assert (Hc : (c < 5)%nat) by apply N.
  pose proof (darkquest_entry _ _ _ _ _ _ _ E) as D. rewrite map_length, seq_length in D. unfold lenM in D.
  destruct (D a c Ha Hc) as (g & G1 & G2). destruct (D c a Hc Ha) as (g' & G1' & G2').
  rewrite (Nat.min_comm c a), (Nat.max_comm c a), G1 in G1'. injection G1' as <-. now rewrite G2, G2'.
Qed.

Lemma mass_min_bounds Om : 0 < Om -> Om <= 15 -> 0 < fst (minimum_halo_mass Om) < pow10 14.
Proof.
  intros H L. destruct (sphere_min Om H) as (_ & _ & _ & ->).
  assert (E : pow10 14 = 10 ^ 14).
  { unfold pow10, ten. replace 14 with (INR 14) at 1 by (simpl; lra). apply Rpower_pow. lra. }
  rewrite E. lra.
Qed.
Lemma grids_incr Om : 0 < Om -> Om <= 15 ->
  incr lenM (fun i => log10 (grid_M Om i)) /\ incr lenk (fun i => log10 (grid_k i)).
Proof.
  intros H L. destruct (mass_min_bounds Om H L) as [P Q]. split.
  - apply log10_incr; [intros; apply pow10_pos|]. apply logspace_incr; [unfold lenM; lia|]. apply log10_lt; assumption.
  - apply log10_incr; [intros; apply pow10_pos|]. apply logspace_incr; [unfold lenk; lia|].
    apply Rlt_le_trans with (log10 1); [rewrite log10_1; lra|]. apply log10_le; lra.
Qed.
(** What the interpolation function returns, for any query. *)
Lemma build_entry phh plin quad Om z f : 0 < Om -> Om <= 15 -> build_interp phh plin quad Om z = Ok f ->
  forall x y w, exists a c ik g,
    (a < lenM)%nat /\ (c < lenM)%nat /\ (ik < lenk)%nat /\
    (forall i, (i < lenM)%nat -> Rabs (x - log10 (grid_M Om a)) <= Rabs (x - log10 (grid_M Om i))) /\
    (forall i, (i < lenM)%nat -> Rabs (y - log10 (grid_M Om c)) <= Rabs (y - log10 (grid_M Om i))) /\
    (forall i, (i < lenk)%nat -> Rabs (w - log10 (grid_k ik)) <= Rabs (w - log10 (grid_k i))) /\
    beta_final (phh z) (plin z) quad (map grid_k (seq 0 lenk)) (snd (minimum_halo_mass Om))
      (grid_M Om (Nat.min a c)) (grid_M Om (Nat.max a c)) = Ok g /\
    f x y w = g (grid_k ik).
Proof.
  intros H L. destruct (grids_incr Om H L) as [I1 I2].
  unfold build_interp. destruct (compute_bnl_darkquest _ _ _ _ _ _) as [t|] eqn:E; cbn [bind]; [|discriminate].
  intro F. injection F as <-. intros x y w. unfold rgi_nearest.
  destruct (nearest_spec lenM _ x ltac:(unfold lenM; lia) I1) as [A1' A2'].
  destruct (nearest_spec lenM _ y ltac:(unfold lenM; lia) I1) as [B1 B2].
  destruct (nearest_spec lenk _ w ltac:(unfold lenk; lia) I2) as [C1 C2].
  set (a := nearest lenM _ x) in *. set (c := nearest lenM _ y) in *. set (ik := nearest lenk _ w) in *.
  pose proof (darkquest_entry _ _ _ _ _ _ _ E) as D. rewrite map_length, seq_length in D.
  destruct (D a c A1' B1) as (g & G1 & G2).
  assert (NM : forall i, (i < lenM)%nat -> pow10 (nth i (map (fun i => log10 (grid_M Om i)) (seq 0 lenM)) 0) = grid_M Om i).
  { intros i Hi. set (h := fun i => log10 (grid_M Om i)).
    rewrite (nth_indep _ 0 (h 0%nat)) by (rewrite map_length, seq_length; exact Hi).
    rewrite (map_nth h), seq_nth by exact Hi. apply pow10_log10, pow10_pos. }
  rewrite !NM in G1 by (try apply Nat.min_lt_iff; try apply Nat.max_lub_lt; auto).
  exists a, c, ik, g. do 3 (split; [assumption|]). split; [exact A2'|]. split; [exact B2|]. split; [exact C2|].
  split; [exact G1|]. rewrite G2. f_equal.
  rewrite (nth_indep _ 0 (grid_k 0%nat)) by (rewrite map_length, seq_length; exact C1).
  rewrite (map_nth grid_k), seq_nth by exact C1. reflexivity.
Qed.
(** The clamped amplitude: witness. *)
Definition c_ref : cosmo_in :=
  {| b_h0 := 1; b_sigma8 := Some 100; b_As := None; b_ob := 0.022; b_oc := 0.12; b_ol := 0.7; b_ns := 1; b_w0 := -1 |}.
Lemma c_ref_box d : 2.4752 <= d <= 3.7128 -> in_box (cparam c_ref d).
Proof.
  intro H. unfold cparam, ombh2, omch2, c_ref. cbn [b_h0 b_ob b_oc b_ol b_ns b_w0]. rewrite fpow_one.
  repeat eexists; lra.
Qed.
Definition s8_ref (v : list R) : R := exp (nth 3 v 0 / 2).
Lemma s8_ref_scales : sigma8_scales s8_ref.
Proof.
  intros a b c d d' e f. unfold s8_ref. cbn [nth]. split; [apply exp_pos|]. rewrite <- exp_plus. f_equal. field.
Qed.
Lemma exp_2 : exp 2 < 16.
Proof.
  assert (X : exp 2 = exp (1 / 2) ^ 4). 
  { rewrite <- Rpower_pow by apply exp_pos. unfold Rpower. rewrite ln_exp. f_equal. simpl. lra. }
  rewrite X. pose proof (exp_ineq1 (- (1 / 2)) ltac:(lra)) as H. rewrite exp_Ropp in H. pose proof (exp_pos (1 / 2)) as P.
  apply Rmult_lt_compat_l with (r := exp (1 / 2)) in H; [|exact P]. rewrite Rinv_r in H by lra.
  apply Rlt_le_trans with (2 ^ 4); [|lra]. assert (E : 0 <= exp (1 / 2) < 2) by lra.
  assert (E2 : exp (1 / 2) * exp (1 / 2) < 4) by nra. assert (0 <= exp (1 / 2) * exp (1 / 2)) by nra.
  replace (exp (1 / 2) ^ 4) with ((exp (1 / 2) * exp (1 / 2)) * (exp (1 / 2) * exp (1 / 2))) by ring. nra.
Qed.
Lemma sigma8_missed : exists sigma8 c s v0 v, sigma8_scales sigma8 /\ (forall d, 2.4752 <= d <= 3.7128 -> in_box (cparam c d)) /\
  b_As c = None /\ b_sigma8 c = Some s /\ 0 < s /\ emulator sigma8 c = Ok [v0; v] /\ sigma8 v <> s.
Proof.
  exists s8_ref, c_ref, 100.
  destruct (emulator_sigma8 s8_ref c_ref 100 s8_ref_scales eq_refl eq_refl ltac:(lra) c_ref_box) as (v0 & v & E & _).
  exists v0, v. split; [exact s8_ref_scales|]. split; [exact c_ref_box|]. do 2 (split; [reflexivity|]). split; [lra|].
  split; [exact E|]. intro Q.
  assert (B : in_box v) by (apply (emulator_box _ _ _ _ E); right; left; reflexivity).
  destruct B as (a & b & c & d & e & f & -> & B). unfold s8_ref in Q. cbn [nth] in Q.
  assert (exp (d / 2) < 100).
  { apply Rlt_trans with (exp 2); [apply exp_increasing; lra|]. pose proof exp_2. lra. }
  lra.
Qed.
