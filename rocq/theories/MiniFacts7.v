(** correlated_priors.py. *)
From Coq Require Import ZArith Ascii.
From Verif Require Import Base Spec QuadFacts FftModel PipeModel OptModel TpModel TpSpec TpFacts TpFacts6 ChainModel ChainFacts PredFacts2 MiniModel MiniSpec MiniFacts2.
From Coq Require Import List.
Open Scope R_scope.

Fixpoint no_char (a : ascii) (s : string) : bool := match s with EmptyString => true | String x t => (negb (Ascii.eqb x a) && no_char a t)%bool end.
Lemma split_none a : forall s, no_char a s = true -> split_on a s = [s].
Proof. induction s as [|x s IH]; intro H; [reflexivity|]. cbn in *. apply andb_true_iff in H as [H1 H2]. destruct (Ascii.eqb x a); [discriminate|]. now rewrite IH. Qed.
Lemma split_two a s n : no_char a s = true -> no_char a n = true -> split_on a (s ++ String a n) = [s; n].
Proof.
  intros S N. induction s as [|x s IH]; cbn.
  - rewrite Ascii.eqb_refl. now rewrite split_none.
  - cbn in S. apply andb_true_iff in S as [S1 S2]. destruct (Ascii.eqb x a); [discriminate|]. now rewrite IH.
Qed.

Fixpoint no_blank (s : string) : bool := match s with EmptyString => true | String x t => (negb (blank x) && no_blank t)%bool end.
Lemma no_blank_app s t : no_blank (s ++ t) = (no_blank s && no_blank t)%bool.
Proof. induction s as [|x s IH]; [reflexivity|]. cbn. rewrite IH. apply andb_assoc. Qed.
Lemma unblank_same : forall s, no_blank s = true -> unblank s = s.
Proof. induction s as [|x s IH]; intro H; [reflexivity|]. cbn in *. apply andb_true_iff in H as [H1 H2]. destruct (blank x); [discriminate|]. now rewrite IH. Qed.
Lemma blank_space : forall s, no_blank s = true -> no_char " "%char s = true.
Proof.
  induction s as [|x s IH]; intro H; [reflexivity|]. cbn in *. apply andb_true_iff in H as [H1 H2]. rewrite (IH H2), andb_true_r.
  destruct (Ascii.eqb_spec x " "%char); [subst; discriminate|reflexivity].
Qed.
Lemma unblank_app s t : unblank (s ++ t) = (unblank s ++ unblank t)%string.
Proof. induction s as [|x s IH]; [reflexivity|]. cbn. now rewrite IH. Qed.
Lemma split_cons a : forall s t, no_char a s = true -> split_on a (s ++ String a t) = s :: split_on a t.
Proof.
  induction s as [|x s IH]; intros t S; cbn.
  - now rewrite Ascii.eqb_refl.
  - cbn in S. apply andb_true_iff in S as [S1 S2]. destruct (Ascii.eqb x a); [discriminate|]. now rewrite IH.
Qed.
Lemma words_join : forall l, (forall w, In w l -> no_blank w = true /\ w <> ""%string) -> words (join " " l) = l.
Proof.
  unfold words, join. induction l as [|w l IH]; intro H; [reflexivity|]. destruct (H w (or_introl eq_refl)) as [B N].
  assert (W : negb (String.eqb w "") = true) by (destruct (String.eqb_spec w ""); [contradiction|reflexivity]).
  destruct l as [|w' l]; [cbn [String.concat]; rewrite unblank_same, split_none by (try apply blank_space; exact B); cbn [filter]; now rewrite W|].
  change (String.concat " " (w :: w' :: l)) with (w ++ " " ++ String.concat " " (w' :: l))%string.
  rewrite unblank_app, (unblank_same w B). change (unblank (" " ++ ?s)) with (String " "%char (unblank s)). rewrite split_cons by (apply blank_space; exact B).
  cbn [filter]. rewrite W. f_equal. apply IH. intros v I. apply H. now right.
Qed.
Lemma plain_chars s : plain_name s -> no_char "/"%char s = true /\ no_blank s = true.
Proof.
  induction s as [|x s IH]; intro P; [now split|]. destruct (P 0%nat x eq_refl) as [A B]. destruct IH as [I1 I2]; [intros n a G; exact (P (S n) a G)|].
  cbn. rewrite I1, I2, B. destruct (Ascii.eqb_spec x "/"%char); [contradiction|]. now split.
Qed.
Lemma listed_pairs names : (forall sn, In sn names -> plain_name (fst sn) /\ plain_name (snd sn)) ->
  map (split_on "/"%char) (words (listed names)) = pairs_of names.
Proof.
  intro H. unfold listed. rewrite words_join.
  - rewrite map_map. unfold pairs_of. apply map_ext_in. intros sn I. destruct (H sn I) as [A B]. apply split_two; now apply plain_chars.
  - intros w I. apply in_map_iff in I as (sn & <- & I). destruct (H sn I) as [A B]. split.
    + rewrite no_blank_app. change (no_blank ("/" ++ snd sn)) with (no_blank (snd sn)). apply plain_chars in A, B. now rewrite (proj2 A), (proj2 B).
    + destruct (fst sn); discriminate.
Qed.
Lemma prior_set missing wrong o loadtxt chol ins outs f c l :
  (forall sn, In sn ins \/ In sn outs -> plain_name (fst sn) /\ plain_name (snd sn)) ->
  o "uncorrelated_parameters"%string = Some (OStr (listed ins)) -> o "output_parameters"%string = Some (OStr (listed outs)) ->
  o "covariance"%string = Some (OStr f) -> loadtxt f = Ok c ->
  (chol c = Some l -> exists r, prior_setup missing wrong o loadtxt chol = Ok r /\ r_in r = pairs_of ins /\ r_out r = pairs_of outs /\ r_l r = l) /\
  (chol c = None -> prior_setup missing wrong o loadtxt chol = Err "LinAlgError").
Proof.
  intros P A B C L. unfold prior_setup, get_string. rewrite A, B, C. cbn [bind]. rewrite L. cbn [bind]. split; intros ->; [|reflexivity].
  eexists. split; [reflexivity|]. cbn. split; [apply listed_pairs; intros; apply P; now left|]. split; [|reflexivity]. apply listed_pairs. intros; apply P; now right.
Qed.
Lemma prior_needs missing wrong o loadtxt chol r : prior_setup missing wrong o loadtxt chol = Ok r ->
  exists i u f c, o "uncorrelated_parameters"%string = Some (OStr i) /\ o "output_parameters"%string = Some (OStr u) /\ o "covariance"%string = Some (OStr f) /\
    loadtxt f = Ok c /\ chol c = Some (r_l r) /\ r_in r = map (split_on "/"%char) (words i) /\ r_out r = map (split_on "/"%char) (words u).
Proof.
  unfold prior_setup. intro H. unfold get_string in H.
  destruct (o "uncorrelated_parameters"%string) as [[]|]; try discriminate H. destruct (o "output_parameters"%string) as [[]|]; try discriminate H.
  destruct (o "covariance"%string) as [[]|]; try discriminate H. cbn [bind] in H. destruct (loadtxt s1) as [c|] eqn:L; [|discriminate H]. cbn [bind] in H.
  destruct (chol c) eqn:K; [|discriminate H]. injection H as <-. exists s, s0, s1, c. now repeat split.
Qed.

Lemma read_numbers b names z : has_numbers b names z -> mapr (fun p => bind (two p) (fun sn => block_num b (fst sn) (snd sn))) (pairs_of names) = Ok z.
Proof.
  intro H. apply mapr_of. unfold pairs_of. induction H as [|[s n] x names z E F IH]; cbn; constructor; [|exact IH]. cbn. unfold block_num. cbn in E. destruct E as [E|(k & E & ->)]; now rewrite E.
Qed.
Definition product (l : mat) (z : list R) (i : nat) : R := sumR (m_n l) (fun k => m_at l i k * nth k z 0).
Lemma correlate_ok l z : m_n l = List.length z -> correlate l z = Ok (map (product l z) (seq 0 (m_n l))).
Proof. intro H. unfold correlate. replace (Nat.eqb _ _) with true by (symmetry; now apply Nat.eqb_eq). reflexivity. Qed.
Lemma put_run : forall out v b, (List.length out <= List.length v)%nat -> snd (put_priors (pairs_of out) v b) = Ok tt.
Proof. induction out as [|[s n] out IH]; intros [|x v] b H; cbn in H; try lia; try reflexivity. cbn. apply IH. lia. Qed.
Lemma put_other : forall out v b s n, ~ In (s, n) out -> fst (put_priors (pairs_of out) v b) s n = b s n.
Proof.
  induction out as [|[s' n'] out IH]; intros v b s n H; [reflexivity|]. cbn. destruct v as [|x v]; [reflexivity|]. rewrite IH by (intro I; apply H; now right).
  apply bput_other. destruct (String.string_dec s s') as [->|E]; [|now left]. right. intros ->. apply H. now left.
Qed.
Lemma put_same : forall out v b, NoDup out -> (List.length out <= List.length v)%nat -> forall i, (i < List.length out)%nat ->
  let p := nth i out (""%string, ""%string) in fst (put_priors (pairs_of out) v b) (fst p) (snd p) = Some (BDbl (nth i v 0)).
Proof.
  induction out as [|[s n] out IH]; intros [|x v] b D L i Hi; cbn in L, Hi; try lia. inversion D; subst. destruct i as [|i].
  - cbn. rewrite put_other by assumption. apply bput_same.
  - cbn [nth pairs_of map put_priors two]. apply IH; [assumption|lia|lia].
Qed.
Lemma put_short : forall out v b, (List.length v < List.length out)%nat -> snd (put_priors (pairs_of out) v b) = Err "IndexError".
Proof. induction out as [|[s n] out IH]; intros [|x v] b H; cbn in H; try lia; [reflexivity|]. cbn. apply IH. lia. Qed.
Lemma put_short_same : forall out v b, NoDup out -> forall i, (i < List.length out)%nat -> (i < List.length v)%nat ->
  let p := nth i out (""%string, ""%string) in fst (put_priors (pairs_of out) v b) (fst p) (snd p) = Some (BDbl (nth i v 0)).
Proof.
  induction out as [|[s n] out IH]; intros [|x v] b D i Hi L; cbn in L, Hi; try lia. inversion D; subst. destruct i as [|i].
  - cbn. rewrite put_other by assumption. apply bput_same.
  - cbn [nth pairs_of map put_priors two]. apply IH; [assumption|lia|lia].
Qed.
Lemma execute_prior r b ins outs z : r_in r = pairs_of ins -> r_out r = pairs_of outs -> has_numbers b ins z -> m_n (r_l r) = List.length z ->
  prior_execute r b = put_priors (pairs_of outs) (map (product (r_l r) z) (seq 0 (List.length z))) b.
Proof. intros A B C D. unfold prior_execute. rewrite A, B, (read_numbers _ _ _ C). cbn [bind]. rewrite correlate_ok by exact D. now rewrite D. Qed.
Lemma nth_product l z i n : (i < n)%nat -> nth i (map (product l z) (seq 0 n)) 0 = product l z i.
Proof. intro H. rewrite (nth_map_lt _ _ 0%nat) by (now rewrite seq_length). now rewrite seq_nth. Qed.

Lemma prior_values r b ins outs z : r_in r = pairs_of ins -> r_out r = pairs_of outs -> has_numbers b ins z -> m_n (r_l r) = List.length z ->
  (List.length outs <= List.length z)%nat -> NoDup outs ->
  exists b', prior_execute r b = (b', Ok tt) /\
    (forall i, (i < List.length outs)%nat -> let p := nth i outs (""%string, ""%string) in
       b' (fst p) (snd p) = Some (BDbl (sumR (List.length z) (fun k => m_at (r_l r) i k * nth k z 0)))) /\
    (forall s n, ~ In (s, n) outs -> b' s n = b s n).
Proof.
  intros A B C D L N. rewrite (execute_prior r b ins outs z) by assumption. set (v := map (product (r_l r) z) (seq 0 (List.length z))).
  assert (LV : List.length v = List.length z) by (unfold v; now rewrite map_length, seq_length).
  exists (fst (put_priors (pairs_of outs) v b)). split; [|split].
  - rewrite <- (put_run outs v b) by lia. apply surjective_pairing.
  - intros i Hi p. unfold p. rewrite put_same by (try assumption; lia). unfold v. rewrite nth_product by lia. unfold product. now rewrite D.
  - intros s n I. now apply put_other.
Qed.
Lemma prior_short r b ins outs z : r_in r = pairs_of ins -> r_out r = pairs_of outs -> has_numbers b ins z -> m_n (r_l r) = List.length z ->
  (List.length z < List.length outs)%nat -> NoDup outs ->
  exists b', prior_execute r b = (b', Err "IndexError") /\
    forall i, (i < List.length z)%nat -> let p := nth i outs (""%string, ""%string) in
       b' (fst p) (snd p) = Some (BDbl (sumR (List.length z) (fun k => m_at (r_l r) i k * nth k z 0))).
Proof.
  intros A B C D L N. rewrite (execute_prior r b ins outs z) by assumption. set (v := map (product (r_l r) z) (seq 0 (List.length z))).
  assert (LV : List.length v = List.length z) by (unfold v; now rewrite map_length, seq_length).
  exists (fst (put_priors (pairs_of outs) v b)). split.
  - rewrite <- (put_short outs v b) by lia. apply surjective_pairing.
  - intros i Hi p. unfold p. rewrite put_short_same by (try assumption; lia). unfold v. rewrite nth_product by lia. unfold product. now rewrite D.
Qed.
Lemma prior_size r b ins z : r_in r = pairs_of ins -> has_numbers b ins z -> m_n (r_l r) <> List.length z -> prior_execute r b = (b, Err "ValueError").
Proof.
  intros A C D. unfold prior_execute. rewrite A, (read_numbers _ _ _ C). cbn [bind]. unfold correlate. destruct (Nat.eqb_spec (m_n (r_l r)) (List.length z)); [contradiction|reflexivity].
Qed.

(** ** What the product means *)
Section Alg.
  Variables (cov l : mat).
  Hypothesis HR : root_of cov l.
  Let n := m_n cov.
  Lemma triangular z i : (i < n)%nat -> sumR n (fun k => m_at l i k * z k) = sumR (i + 1) (fun k => m_at l i k * z k).
  Proof.
    intro Hi. destruct HR as (_ & _ & T & _). replace n with ((i + 1) + (n - i - 1))%nat by lia. rewrite sumR_split. rewrite (sumR_ext (n - i - 1) _ (fun _ => 0)).
    - rewrite sumR_zero. ring.
    - intros k Hk. rewrite T by (unfold n in *; lia). ring.
  Qed.
  (** A lower triangular matrix with a positive diagonal is one to one. *)
  Lemma triangular_zero w : (forall i, (i < n)%nat -> sumR n (fun k => m_at l i k * w k) = 0) -> forall i, (i < n)%nat -> w i = 0.
  Proof.
    intros H i. induction i as [i IH] using lt_wf_ind. intro Hi. specialize (H i Hi). rewrite triangular in H by exact Hi. rewrite Nat.add_1_r in H. cbn [sumR] in H.
    rewrite (sumR_ext i _ (fun _ => 0)) in H by (intros k Hk; rewrite IH by lia; ring). rewrite sumR_zero in H.
    destruct HR as (_ & P & _). specialize (P i Hi). assert (m_at l i i * w i = 0) by lra. apply Rmult_integral in H0 as [Q|Q]; [lra|exact Q].
  Qed.
  (** Quadratic form of the correlated vector. *)
  Lemma whitened i z : inverse_of cov i -> form n (m_at i) (fun a => sumR n (fun k => m_at l a k * z k)) = sumR n (fun k => z k * z k).
  Proof.
    intros [Ni I]. fold n in Ni, I. set (p := fun a => sumR n (fun k => m_at l a k * z k)). set (y := fun a => sumR n (fun b => m_at i a b * p b)).
    destruct HR as (_ & _ & _ & C). fold n in C.
    assert (CY : forall a, (a < n)%nat -> sumR n (fun k => m_at cov a k * y k) = p a).
    { intros a Ha. unfold y. transitivity (sumR n (fun k => sumR n (fun b => p b * (m_at cov a k * m_at i k b)))).
      - apply sumR_ext. intros k _. rewrite <- sumR_scal. apply sumR_ext. intros b _. ring.
      - rewrite sumR_swap. transitivity (sumR n (fun b => kron a b * p b)); [|now apply sum_kron]. apply sumR_ext. intros b Hb. rewrite sumR_scal, I by assumption. unfold kron. ring. }
    set (q := fun k => sumR n (fun a => m_at l a k * y a)).
    assert (LQ : forall a, (a < n)%nat -> sumR n (fun k => m_at l a k * q k) = p a).
    { intros a Ha. rewrite <- (CY a Ha). unfold q. transitivity (sumR n (fun k => sumR n (fun b => y b * (m_at l a k * m_at l b k)))).
      - apply sumR_ext. intros k _. rewrite <- sumR_scal. apply sumR_ext. intros b _. ring.
      - rewrite sumR_swap. apply sumR_ext. intros b Hb. rewrite sumR_scal, C by assumption. ring. }
    assert (QZ : forall k, (k < n)%nat -> q k = z k).
    { intros k Hk. assert (W : q k - z k = 0); [|lra]. apply (triangular_zero (fun k => q k - z k)); [|exact Hk]. intros a Ha.
      transitivity (sumR n (fun k => m_at l a k * q k) + -1 * sumR n (fun k => m_at l a k * z k)).
      - rewrite <- sumR_scal, <- sumR_plus. apply sumR_ext. intros j _. ring.
      - rewrite LQ by exact Ha. unfold p. ring. }
    unfold form. transitivity (sumR n (fun a => p a * y a)).
    - apply sumR_ext. intros a _. unfold y. rewrite <- sumR_scal. apply sumR_ext. intros b _. ring.
    - transitivity (sumR n (fun k => z k * q k)); [|apply sumR_ext; intros k Hk; now rewrite QZ].
      unfold p, q. transitivity (sumR n (fun a => sumR n (fun k => z k * (m_at l a k * y a)))).
      + apply sumR_ext. intros a _. rewrite Rmult_comm, <- sumR_scal. apply sumR_ext. intros k _. ring.
      + rewrite sumR_swap. apply sumR_ext. intros k _. now rewrite sumR_scal.
  Qed.
  (** Samples with unit covariance come out with the covariance asked for. *)
  Lemma ensemble m (z : nat -> nat -> R) : (forall i j, (i < n)%nat -> (j < n)%nat -> sumR m (fun s => z s i * z s j) = if Nat.eqb i j then INR m else 0) ->
    forall i j, (i < n)%nat -> (j < n)%nat ->
      sumR m (fun s => sumR n (fun k => m_at l i k * z s k) * sumR n (fun k => m_at l j k * z s k)) = INR m * m_at cov i j.
  Proof.
    intros Z i j Hi Hj. destruct HR as (_ & _ & _ & C). rewrite <- (C i j Hi Hj). fold n.
    transitivity (sumR n (fun k => sumR n (fun k' => m_at l i k * m_at l j k' * sumR m (fun s => z s k * z s k')))).
    - transitivity (sumR m (fun s => sumR n (fun k => sumR n (fun k' => m_at l i k * m_at l j k' * (z s k * z s k'))))).
      + apply sumR_ext. intros s _. rewrite Rmult_comm, <- sumR_scal. apply sumR_ext. intros k _. rewrite Rmult_comm, <- sumR_scal. apply sumR_ext. intros k' _. ring.
      + rewrite sumR_swap. apply sumR_ext. intros k _. rewrite sumR_swap. apply sumR_ext. intros k' _. apply sumR_scal.
    - rewrite <- sumR_scal. apply sumR_ext. intros k Hk. transitivity (sumR n (fun k' => kron k k' * (INR m * (m_at l i k * m_at l j k')))).
      + apply sumR_ext. intros k' Hk'. rewrite Z by assumption. unfold kron. destruct (Nat.eqb k k'); ring.
      + rewrite sum_kron by exact Hk. reflexivity.
  Qed.
End Alg.
