(** Proofs about pyfftlog: what fhtq computes. *)
From Coq Require Import ZArith Lia.
From Verif Require Import Base QuadFacts FftModel FftFacts.
Open Scope R_scope.

Lemma scatter_miss (idx : nat -> nat) (v : nat -> R) (ms : list nat) : forall (f : A1) i, (forall m, In m ms -> idx m <> i) -> fold_left (fun g m => upd g (idx m) (v m)) ms f i = f i.
Proof.
  induction ms as [|m ms IH]; intros f i H; [reflexivity|]. cbn. rewrite IH by (intros x Hx; apply H; now right).
  unfold upd. destruct (Nat.eqb_spec i (idx m)) as [E|E]; [|reflexivity]. exfalso. apply (H m); [now left|easy].
Qed.
Lemma scatter_hit (idx : nat -> nat) (v : nat -> R) (ms : list nat) : NoDup ms -> (forall m m', In m ms -> In m' ms -> idx m = idx m' -> m = m') ->
  forall (f : A1) m, In m ms -> fold_left (fun g m => upd g (idx m) (v m)) ms f (idx m) = v m.
Proof.
  induction ms as [|x ms IH]; intros ND Inj f m H; [destruct H|]. inversion ND as [|? ? Nx ND']; subst. cbn. destruct H as [-> |H].
  - rewrite scatter_miss; [unfold upd; now rewrite Nat.eqb_refl|]. intros y Hy E. apply Nx. rewrite <- (Inj y m); [exact Hy|now right|now left|exact E].
  - apply IH; [exact ND'| |exact H]. intros a b Ha Hb. apply Inj; now right.
Qed.
Lemma forallb_bound n (idx : nat -> nat) (ms : list nat) : (forall m, In m ms -> (idx m < n)%nat) -> forallb (fun m => Nat.ltb (idx m) n) ms = true.
Proof. intros H. apply forallb_forall. intros m Hm. apply Nat.ltb_lt. auto. Qed.

(** An array agrees with real and imaginary parts given per frequency. *)
Definition lays (n : nat) (f : A1) (z0 : R) (re im : nat -> R) (last : R) : Prop :=
  f 0%nat = z0 /\ (forall m, (1 <= m <= (n - 1) / 2)%nat -> f (2 * m - 1)%nat = re m /\ f (2 * m)%nat = im m) /\ (Nat.even n = true -> f (n - 1)%nat = last).

Lemma half_bound n m : (1 <= m <= (n - 1) / 2)%nat -> (2 * m < n)%nat.
Proof. intros H. pose proof (Nat.div_mod (n - 1) 2). lia. Qed.
Lemma half_even' n : (1 <= n)%nat -> Nat.even n = true -> exists h, n = (2 * h)%nat /\ (n / 2 = h)%nat /\ ((n - 1) / 2 = h - 1)%nat /\ (1 <= h)%nat.
Proof.
  intros Hn E. apply Nat.even_spec in E as [h E]. exists h. subst n. repeat split; [|symmetry; apply (Nat.div_unique _ _ _ 1); lia|lia].
  rewrite Nat.mul_comm. apply Nat.div_mul. lia.
Qed.
Lemma odd_half n : Nat.even n = false -> exists h, n = (2 * h + 1)%nat /\ (n / 2 = h)%nat /\ ((n - 1) / 2 = h)%nat.
Proof.
  intros E. assert (O : Nat.odd n = true) by (unfold Nat.odd; now rewrite E). apply Nat.odd_spec in O as [h E']. exists h. subst n. repeat split.
  - symmetry; apply (Nat.div_unique _ _ _ 1); lia.
  - replace (2 * h + 1 - 1)%nat with (h * 2)%nat by lia. apply Nat.div_mul. lia.
Qed.

Lemma rotate_lays n f z0 re im last c s : (1 <= n)%nat -> lays n f z0 re im last -> exists g, rotate n f (seq 1 ((n - 1) / 2)) c s = Ok g /\
  lays n g z0 (fun m => re m * c m - im m * s m) (fun m => re m * s m + im m * c m) last.
Proof.
  intros Hn (H0 & H1 & H2). set (p := ((n - 1) / 2)%nat) in *. unfold rotate, fread, fwrite.
  assert (B : forall m, In m (seq 1 p) -> (2 * m < n)%nat) by (intros m H; apply in_seq in H; apply half_bound; fold p; lia).
  rewrite !forallb_bound by (intros m H; specialize (B m H); lia). cbn [bind]. eexists. split; [reflexivity|].
  assert (P : Nat.even n = true -> (n - 1 = 2 * p + 1)%nat).
  { intros E. destruct (half_even' n Hn E) as (h & A & _ & C & D). unfold p. rewrite C. lia. }
  split; [|split].
  - rewrite !scatter_miss by (intros m H; apply in_seq in H; lia). exact H0.
  - intros m Hm. assert (I : In m (seq 1 p)) by (apply in_seq; lia). destruct (H1 m Hm) as [R1 R2]. split.
    + rewrite scatter_miss by (intros x H; apply in_seq in H; lia).
      rewrite (scatter_hit (fun m => 2 * m - 1)%nat) with (m := m); [now rewrite R1, R2|apply seq_NoDup| |exact I].
      intros a b Ha Hb. apply in_seq in Ha, Hb. lia.
    + rewrite (scatter_hit (fun m => 2 * m)%nat) with (m := m); [now rewrite R1, R2|apply seq_NoDup| |exact I].
      intros a b Ha Hb. lia.
  - intros E. rewrite !scatter_miss by (intros m H; apply in_seq in H; rewrite (P E); lia). now apply H2.
Qed.
(** Multiplying both parts by a factor per frequency. *)
Lemma gain_lays n f z0 re im last (op : R -> R -> R) am z0' : (1 <= n)%nat -> lays n f z0 re im last -> exists g,
  bind (fwrite n (upd f 0 z0') (fun m => 2 * m - 1)%nat (seq 1 ((n - 1) / 2)) (fun m => op (upd f 0 z0' (2 * m - 1)%nat) (am m)))
    (fun fct => fwrite n fct (fun m => 2 * m)%nat (seq 1 ((n - 1) / 2)) (fun m => op (fct (2 * m)%nat) (am m))) = Ok g /\
  lays n g z0' (fun m => op (re m) (am m)) (fun m => op (im m) (am m)) (if Nat.eqb n 1 then z0' else last).
Proof.
  intros Hn (H0 & H1 & H2). set (p := ((n - 1) / 2)%nat) in *. unfold fwrite.
  assert (B : forall m, In m (seq 1 p) -> (2 * m < n)%nat) by (intros m H; apply in_seq in H; apply half_bound; fold p; lia).
  rewrite !forallb_bound by (intros m H; specialize (B m H); lia). cbn [bind]. eexists. split; [reflexivity|].
  assert (P : Nat.even n = true -> (n - 1 = 2 * p + 1)%nat).
  { intros E. destruct (half_even' n Hn E) as (h & A & _ & C & D). unfold p. rewrite C. lia. }
  split; [|split].
  - rewrite !scatter_miss by (intros m H; apply in_seq in H; lia). reflexivity.
  - intros m Hm. assert (I : In m (seq 1 p)) by (apply in_seq; lia). destruct (H1 m Hm) as [R1 R2]. split.
    + rewrite scatter_miss by (intros x H; apply in_seq in H; lia).
      rewrite (scatter_hit (fun m => 2 * m - 1)%nat) with (m := m); [|apply seq_NoDup| |exact I].
      * unfold upd. destruct (Nat.eqb_spec (2 * m - 1) 0); [lia|]. now rewrite R1.
      * intros a b Ha Hb. apply in_seq in Ha, Hb. lia.
    + rewrite (scatter_hit (fun m => 2 * m)%nat) with (m := m); [|apply seq_NoDup| |exact I].
      * rewrite scatter_miss by (intros x H; apply in_seq in H; lia). unfold upd. destruct (Nat.eqb_spec (2 * m) 0); [lia|]. now rewrite R2.
      * intros a b Ha Hb. lia.
  - intros E. rewrite !scatter_miss by (intros m H; apply in_seq in H; rewrite (P E); lia). unfold upd. rewrite (P E).
    destruct (Nat.eqb_spec (2 * p + 1) 0); [lia|]. rewrite <- (P E). rewrite H2 by exact E. destruct (Nat.eqb_spec n 1); [subst; discriminate|reflexivity].
Qed.
Lemma last_lays n f z0 re im last ar tdir last' : (2 <= n)%nat -> Nat.even n = true -> lays n f z0 re im last ->
  last' = (if Z.eqb tdir 1 then last * ar else if Z.eqb tdir (-1) then last / ar else last) ->
  lays n (last_element n f ar tdir) z0 re im last'.
Proof.
  intros Hn E (H0 & H1 & H2) ->. specialize (H2 E). destruct (half_even' n ltac:(lia) E) as (h & A & _ & C & D).
  assert (K : forall v, lays n (upd f (n - 1) v) z0 re im v).
  { intros v. split; [|split].
    - unfold upd. destruct (Nat.eqb_spec 0 (n - 1)); [lia|exact H0].
    - intros m Hm. pose proof (half_bound n m Hm). unfold upd. rewrite C in Hm.
      destruct (Nat.eqb_spec (2 * m - 1) (n - 1)); [lia|]. destruct (Nat.eqb_spec (2 * m) (n - 1)); [lia|]. apply H1. lia.
    - intros _. unfold upd. now rewrite Nat.eqb_refl. }
  unfold last_element. destruct (Z.eqb tdir 1); [rewrite H2; apply K|]. destruct (Z.eqb tdir (-1)); [rewrite H2; apply K|].
  split; [exact H0|]. split; [exact H1|]. intros _. exact H2.
Qed.

(** The transform of an array, in this layout. *)
Lemma rfft_lays n a : (1 <= n)%nat -> lays n (rfft n a) (sumR n a)
  (fun m => sumR n (fun j => a j * cos (2 * PI * INR m * INR j / INR n))) (fun m => - sumR n (fun j => a j * sin (2 * PI * INR m * INR j / INR n)))
  (sumR n (fun j => a j * cos (PI * INR j))).
Proof.
  intros Hn. split; [|split].
  - unfold rfft. change (Nat.odd 0) with false. change (Nat.eqb 0 0) with true. cbv iota. change (0 / 2)%nat with 0%nat.
    replace (sumR n (fun j => a j * sin (2 * PI * INR 0 * INR j / INR n))) with 0; [ring|]. symmetry.
    rewrite <- (sumR_zero n). apply sumR_ext. intros j _. change (INR 0) with 0. replace (2 * PI * 0 * INR j / INR n) with 0 by (unfold Rdiv; ring).
    rewrite sin_0. ring.
  - intros m Hm. unfold rfft. split.
    + assert (O : Nat.odd (2 * m - 1) = true). { apply Nat.odd_spec. exists (m - 1)%nat. lia. } rewrite O.
      replace ((2 * m - 1 + 1) / 2)%nat with m; [reflexivity|]; apply (Nat.div_unique _ _ _ 0); lia.
    + assert (O : Nat.odd (2 * m) = false). { unfold Nat.odd. assert (Nat.even (2 * m) = true) as ->; [|reflexivity]. apply Nat.even_spec. now exists m. } rewrite O.
      destruct (Nat.eqb_spec (2 * m) 0); [lia|]. replace ((2 * m) / 2)%nat with m; [ring|]. apply (Nat.div_unique _ _ _ 0); lia.
  - intros E. destruct (half_even' n Hn E) as (h & A & B & C & D). unfold rfft.
    assert (O : Nat.odd (n - 1) = true). { apply Nat.odd_spec. exists (h - 1)%nat. lia. } rewrite O.
    replace ((n - 1 + 1) / 2)%nat with h; [|rewrite <- B; f_equal; lia].
    apply sumR_ext. intros j _. f_equal. f_equal. rewrite A, mult_INR. change (INR 2) with 2. field. apply not_0_INR. lia.
Qed.
Lemma irfft_lays n f z0 re im last j : lays n f z0 re im last ->
  irfft n f j = (z0 + 2 * sumR ((n - 1) / 2) (fun k => re (S k) * cos (2 * PI * INR (S k) * INR j / INR n) - im (S k) * sin (2 * PI * INR (S k) * INR j / INR n))
    + (if Nat.even n then last * cos (PI * INR j) else 0)) / INR n.
Proof.
  intros (H0 & H1 & H2). unfold irfft. rewrite H0. f_equal. f_equal; [f_equal; f_equal; apply sumR_ext; intros k Hk|].
  - destruct (H1 (S k)) as [-> ->]; [lia|reflexivity].
  - destruct (Nat.even n) eqn:E; [now rewrite H2|reflexivity].
Qed.

(** The circular kernel: output l of the inverse transform of the modified spectrum. *)
Definition kap (n : nat) (u0 : R) (g arg : nat -> R) (nyq d : R) : R :=
  (u0 + 2 * sumR ((n - 1) / 2) (fun k => g (S k) * cos (2 * PI * INR (S k) * d / INR n + arg (S k)))
   + (if Nat.even n then nyq * cos (PI * d) else 0)) / INR n.
Lemma sumR_scal_r n c f : sumR n (fun i => f i * c) = sumR n f * c.
Proof. rewrite (sumR_ext n _ (fun i => c * f i)) by (intros; ring). rewrite sumR_scal. ring. Qed.
Lemma cos_pi_sub l i : cos (PI * INR l) * cos (PI * INR i) = cos (PI * (INR l - INR i)).
Proof.
  rewrite Rmult_minus_distr_l, cos_minus. replace (sin (PI * INR i)) with 0; [ring|].
  symmetry. induction i as [|i IH]; [change (INR 0) with 0; now rewrite Rmult_0_r, sin_0|].
  rewrite S_INR. replace (PI * (INR i + 1)) with (PI * INR i + PI) by ring. rewrite neg_sin, IH. ring.
Qed.
Lemma irfft_kap n a u0 g arg nyq f l : (1 <= n)%nat ->
  lays n f (u0 * sumR n a)
    (fun m => g m * (sumR n (fun j => a j * cos (2 * PI * INR m * INR j / INR n)) * cos (arg m) + sumR n (fun j => a j * sin (2 * PI * INR m * INR j / INR n)) * sin (arg m)))
    (fun m => g m * (sumR n (fun j => a j * cos (2 * PI * INR m * INR j / INR n)) * sin (arg m) - sumR n (fun j => a j * sin (2 * PI * INR m * INR j / INR n)) * cos (arg m)))
    (nyq * sumR n (fun j => a j * cos (PI * INR j))) ->
  irfft n f l = sumR n (fun i => a i * kap n u0 g arg nyq (INR l - INR i)).
Proof.
  intros Hn H. rewrite (irfft_lays _ _ _ _ _ _ _ H). unfold kap.
  assert (N0 : INR n <> 0) by (apply not_0_INR; lia).
  etransitivity; [|symmetry; apply (sumR_ext n _ (fun i => / INR n * (u0 * a i
     + 2 * sumR ((n - 1) / 2) (fun k => a i * (g (S k) * cos (2 * PI * INR (S k) * (INR l - INR i) / INR n + arg (S k))))
     + (if Nat.even n then nyq * (a i * cos (PI * (INR l - INR i))) else 0))));
    intros i _; rewrite sumR_scal; destruct (Nat.even n); unfold Rdiv; ring].
  rewrite sumR_scal. unfold Rdiv. rewrite Rmult_comm. f_equal. rewrite !sumR_plus. rewrite !sumR_scal. f_equal; [f_equal|].
  - f_equal. rewrite sumR_swap. apply sumR_ext. intros k _.
    etransitivity; [|symmetry; apply (sumR_ext n _ (fun i => g (S k) * cos (arg (S k)) * cos (2 * PI * INR (S k) * INR l * / INR n) * (a i * cos (2 * PI * INR (S k) * INR i / INR n))
      + (g (S k) * sin (arg (S k)) * cos (2 * PI * INR (S k) * INR l * / INR n) * (a i * sin (2 * PI * INR (S k) * INR i / INR n))
      + (g (S k) * cos (arg (S k)) * sin (2 * PI * INR (S k) * INR l * / INR n) * (a i * sin (2 * PI * INR (S k) * INR i / INR n))
      + - (g (S k) * sin (arg (S k)) * sin (2 * PI * INR (S k) * INR l * / INR n)) * (a i * cos (2 * PI * INR (S k) * INR i / INR n))))))].
    + rewrite !sumR_plus, !sumR_scal. unfold Rdiv. ring.
    + intros i _. replace (2 * PI * INR (S k) * (INR l - INR i) * / INR n) with (2 * PI * INR (S k) * INR l * / INR n - 2 * PI * INR (S k) * INR i / INR n) by (unfold Rdiv; ring).
      rewrite cos_plus, cos_minus, sin_minus. ring.
  - destruct (Nat.even n); [|now rewrite sumR_zero].
    rewrite sumR_scal. rewrite Rmult_assoc. f_equal. rewrite <- sumR_scal_r. apply sumR_ext. intros i _. rewrite <- cos_pi_sub. ring.
Qed.
