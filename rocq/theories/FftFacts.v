(** Proofs about pyfftlog: the work array. *)
From Coq Require Import ZArith Lia.
From Verif Require Import Base FftModel.
Open Scope R_scope.

Lemma filter_all {A} (f : A -> bool) l : (forall x, In x l -> f x = true) -> filter f l = l.
Proof. induction l as [|x l IH]; intros H; [reflexivity|]. cbn. rewrite (H x) by (now left). f_equal. apply IH. intros y Hy. apply H. now right. Qed.
Lemma arange_half_seq s : arange_half s = seq 1 ((s - 1) / 2).
Proof.
  unfold arange_half. set (p := ((s - 1) / 2)%nat).
  assert (P : (2 * p <= s - 1 < 2 * p + 2)%nat) by (subst p; pose proof (Nat.div_mod (s - 1) 2); pose proof (Nat.mod_upper_bound (s - 1) 2); lia).
  assert (E0 : seq 1 s = seq 1 (p + (s - p))) by (f_equal; lia). rewrite E0, seq_app, filter_app.
  rewrite (filter_all _ (seq 1 p)) by (intros m H; apply in_seq in H; apply Nat.ltb_lt; lia).
  replace (filter _ (seq (1 + p) _)) with (@nil nat); [apply app_nil_r|]. symmetry.
  destruct (filter _ (seq (1 + p) (s - p))) as [|m l] eqn:E; [reflexivity|].
  assert (H : In m (m :: l)) by (left; reflexivity). rewrite <- E in H. apply filter_In in H as [H1 H2]. apply in_seq in H1. apply Nat.ltb_lt in H2. lia.
Qed.

Lemma xput_length xs : forall i v, List.length (xput xs i v) = List.length xs.
Proof. induction xs as [|x t IH]; intros [|i] v; cbn; auto. Qed.
Lemma xput_hit xs : forall i v, (i < List.length xs)%nat -> nth_error (xput xs i v) i = Some (Some v).
Proof. induction xs as [|x t IH]; intros [|i] v H; cbn in *; try lia; [reflexivity|]. apply IH. lia. Qed.
Lemma xput_miss xs : forall i j v, i <> j -> nth_error (xput xs i v) j = nth_error xs j.
Proof. induction xs as [|x t IH]; intros [|i] [|j] v H; cbn; try reflexivity; try congruence. apply IH. congruence. Qed.
Lemma put_length v : forall xs start step, List.length (put_stride xs start step v) = List.length xs.
Proof. induction v as [|a v IH]; intros; cbn; [reflexivity|]. now rewrite IH, xput_length. Qed.
Lemma put_miss v : forall xs start step i, (forall t, (t < List.length v)%nat -> i <> (start + t * step)%nat) ->
  nth_error (put_stride xs start step v) i = nth_error xs i.
Proof.
  induction v as [|a v IH]; intros xs start step i H; cbn; [reflexivity|]. rewrite IH.
  - apply xput_miss. intros E. apply (H 0%nat); cbn; lia.
  - intros t Ht E. apply (H (S t)); cbn; lia.
Qed.
Lemma put_hit v : forall xs start step t, (1 <= step)%nat -> (t < List.length v)%nat -> (start + t * step < List.length xs)%nat ->
  nth_error (put_stride xs start step v) (start + t * step) = Some (Some (nth t v 0)).
Proof.
  induction v as [|a v IH]; intros xs start step t Hs Ht L; cbn in *; [lia|]. destruct t as [|t].
  - rewrite put_miss; [rewrite Nat.add_0_r in *; now apply xput_hit|]. intros t _. nia.
  - replace (start + S t * step)%nat with ((start + step) + t * step)%nat by (cbn; lia). apply IH; [exact Hs|lia|rewrite xput_length; cbn in L; lia].
Qed.
Lemma empty_length n : List.length (np_empty n) = n. Proof. apply repeat_length. Qed.

Lemma xset_ok xs i v : (i < List.length xs)%nat -> xset xs i v = Ok (xput xs i v).
Proof. intros H. unfold xset. now apply Nat.ltb_lt in H as ->. Qed.
Lemma slots_eq c s t r : (1 <= c)%nat -> (r <= t)%nat -> (t < c + r)%nat -> slots (c * s + r) t c = s.
Proof.
  intros Hc H1 H2. unfold slots. destruct (Nat.leb_spec (c * s + r) t) as [L|L].
  - destruct s; [reflexivity|]. nia.
  - assert (exists s', s = S s') as [s' ->] by (destruct s as [|s']; [lia|now exists s']).
    f_equal. symmetry. apply (Nat.div_unique _ _ _ (c + r - t - 1)); nia.
Qed.
Lemma slice_ok xs start step v : slots (List.length xs) start step = List.length v -> xset_slice xs start step v = Ok (put_stride xs start step v).
Proof. intros H. unfold xset_slice. now rewrite H, Nat.eqb_refl. Qed.

(** Values at the frequencies of the transform. *)
Definition freq (n : nat) (dlnr : R) (m : nat) : R := INR m * (PI / (INR n * dlnr)).
Section Gamma.
  Variables lgr lgi : R -> R -> R.
  Definition xsave_arg (mu q kr y : R) : R := 2 * ln (2 / kr) * y + lgi ((mu + 1 + q) / 2) y + lgi ((mu + 1 - q) / 2) y.
  Definition xsave_amp (mu q y : R) : R := exp (ln 2 * q + lgr ((mu + 1 + q) / 2) y - lgr ((mu + 1 - q) / 2) y).

  Lemma nth_map_seq (f : nat -> R) a n t : (t < n)%nat -> nth t (map f (seq a n)) 0 = f (a + t)%nat.
  Proof. intros H. rewrite (nth_indep _ 0 (f 0%nat)) by (now rewrite map_length, seq_length). rewrite map_nth, seq_nth by exact H. reflexivity. Qed.
  Lemma half_of n : (((n + 1) - 1) / 2 = n / 2)%nat. Proof. f_equal. lia. Qed.

  (** Everything [fhtq] may read. *)
  Definition work (n : nat) (mu dlnr q kr : R) (xs : cells) : Prop :=
    xget xs 0 = Ok q /\ xget xs 1 = Ok dlnr /\ xget xs 2 = Ok kr /\
    (q = 0 -> List.length xs = (2 * (n / 2) + 3)%nat /\ forall m, (1 <= m <= n / 2)%nat ->
       xget xs (2 * m + 1) = Ok (cos (xsave_arg mu q kr (freq n dlnr m))) /\ xget xs (2 * m + 2) = Ok (sin (xsave_arg mu q kr (freq n dlnr m)))) /\
    (q <> 0 -> List.length xs = (3 * (n / 2) + 4)%nat /\ (exists u0, first_coefficient lgr lgi mu q = Ok u0 /\ xget xs 3 = Ok u0) /\
       forall m, (1 <= m <= n / 2)%nat ->
       xget xs (3 * m + 1) = Ok (xsave_amp mu q (freq n dlnr m)) /\
       xget xs (3 * m + 2) = Ok (cos (xsave_arg mu q kr (freq n dlnr m))) /\ xget xs (3 * m + 3) = Ok (sin (xsave_arg mu q kr (freq n dlnr m)))).

  Ltac lens := rewrite ?put_length, ?xput_length, ?empty_length, ?map_length, ?seq_length.
  Ltac at_head := repeat (rewrite put_miss by (lens; intros; lia)); repeat (rewrite xput_miss by lia); rewrite xput_hit by (lens; lia); reflexivity.
  Lemma fhti_work n mu dlnr q kr0 kropt kr xs : fhti lgr lgi n mu dlnr q kr0 kropt = Ok (kr, xs) ->
    (1 <= n)%nat /\ adjust_kr lgi mu q dlnr kr0 kropt = Ok kr /\ work n mu dlnr q kr xs.
  Proof.
    unfold fhti. destruct (adjust_kr lgi mu q dlnr kr0 kropt) as [kr1|e]; cbn [bind]; [|discriminate].
    destruct (Nat.eqb_spec n 0) as [Z|NZ]; [discriminate|]. rewrite arange_half_seq, half_of. set (s := (n / 2)%nat).
    destruct (Req_EM_T q 0) as [Q|Q].
    - rewrite xset_ok by (lens; lia). cbn [bind]. rewrite xset_ok by (lens; lia). cbn [bind]. rewrite xset_ok by (lens; lia). cbn [bind].
      rewrite slice_ok by (lens; apply slots_eq; lia). cbn [bind]. rewrite slice_ok by (lens; apply slots_eq; lia). cbn [bind].
      intros H. injection H as -> <-. split; [lia|]. split; [reflexivity|].
      split; [unfold xget; at_head|]. split; [unfold xget; at_head|]. split; [unfold xget; at_head|]. split; [|contradiction].
      intros _. split; [lens; reflexivity|]. intros m Hm. assert (M : exists t, m = S t /\ (t < s)%nat) by (exists (m - 1)%nat; lia). destruct M as (t & -> & Ht).
      unfold xget. split.
      + rewrite put_miss by (lens; intros; lia). replace (2 * S t + 1)%nat with (3 + t * 2)%nat by lia.
        rewrite put_hit by (lens; lia). rewrite map_map, nth_map_seq by exact Ht. do 2 f_equal. unfold xsave_arg, freq. subst q.
        rewrite Rplus_0_r, Rminus_0_r. change (1 + t)%nat with (S t). ring.
      + replace (2 * S t + 2)%nat with (4 + t * 2)%nat by lia.
        rewrite put_hit by (lens; lia). rewrite map_map, nth_map_seq by exact Ht. do 2 f_equal. unfold xsave_arg, freq. subst q.
        rewrite Rplus_0_r, Rminus_0_r. change (1 + t)%nat with (S t). ring.
    - destruct (first_coefficient lgr lgi mu q) as [u0|e] eqn:FC; cbn [bind]; [|discriminate].
      rewrite xset_ok by (lens; lia). cbn [bind]. rewrite xset_ok by (lens; lia). cbn [bind]. rewrite xset_ok by (lens; lia). cbn [bind].
      rewrite xset_ok by (lens; lia). cbn [bind].
      rewrite slice_ok by (lens; apply slots_eq; lia). cbn [bind]. rewrite slice_ok by (lens; apply slots_eq; lia). cbn [bind].
      rewrite slice_ok by (lens; apply slots_eq; lia). cbn [bind].
      intros H. injection H as -> <-. split; [lia|]. split; [reflexivity|].
      split; [unfold xget; at_head|]. split; [unfold xget; at_head|]. split; [unfold xget; at_head|]. split; [contradiction|].
      intros _. split; [lens; reflexivity|]. split; [exists u0; split; [exact FC|unfold xget; at_head]|].
      intros m Hm. assert (M : exists t, m = S t /\ (t < s)%nat) by (exists (m - 1)%nat; lia). destruct M as (t & -> & Ht).
      unfold xget. split; [|split].
      + rewrite put_miss by (lens; intros; lia). rewrite put_miss by (lens; intros; lia). replace (3 * S t + 1)%nat with (4 + t * 3)%nat by lia.
        rewrite put_hit by (lens; lia). rewrite nth_map_seq by exact Ht. reflexivity.
      + rewrite put_miss by (lens; intros; lia). replace (3 * S t + 2)%nat with (5 + t * 3)%nat by lia.
        rewrite put_hit by (lens; lia). rewrite map_map, nth_map_seq by exact Ht. reflexivity.
      + replace (3 * S t + 3)%nat with (6 + t * 3)%nat by lia.
        rewrite put_hit by (lens; lia). rewrite map_map, nth_map_seq by exact Ht. reflexivity.
  Qed.

  (** Nothing is left uninitialised. *)
  Lemma work_full n mu dlnr q kr xs : work n mu dlnr q kr xs -> forall i, (i < List.length xs)%nat -> exists v, xget xs i = Ok v.
  Proof.
    intros (W0 & W1 & W2 & WA & WB) i Hi. destruct i as [|[|[|i]]]; [eauto|eauto|eauto|]. destruct (Req_EM_T q 0) as [Q|Q].
    - destruct (WA Q) as [L W]. rewrite L in Hi. pose proof (Nat.div_mod i 2) as D. pose proof (Nat.mod_upper_bound i 2) as U.
      destruct (W (S (i / 2))) as [Wa Wb]; [lia|]. destruct (Nat.eq_dec (i mod 2) 0) as [E|E].
      + replace (S (S (S i))) with (2 * S (i / 2) + 1)%nat by lia. eauto.
      + replace (S (S (S i))) with (2 * S (i / 2) + 2)%nat by lia. eauto.
    - destruct (WB Q) as (L & (u0 & _ & U0) & W). destruct i as [|i]; [eauto|]. rewrite L in Hi.
      pose proof (Nat.div_mod i 3) as D. pose proof (Nat.mod_upper_bound i 3) as U.
      destruct (W (S (i / 3))) as (Wa & Wb & Wc); [lia|]. destruct (Nat.eq_dec (i mod 3) 0) as [E|E]; [|destruct (Nat.eq_dec (i mod 3) 1) as [E1|E1]].
      + replace (S (S (S (S i)))) with (3 * S (i / 3) + 1)%nat by lia. eauto.
      + replace (S (S (S (S i)))) with (3 * S (i / 3) + 2)%nat by lia. eauto.
      + replace (S (S (S (S i)))) with (3 * S (i / 3) + 3)%nat by lia. eauto.
  Qed.

  Lemma fhti_total n mu dlnr q kr0 kropt : (1 <= n)%nat -> (kropt <= 2)%nat ->
    (q <> 0 -> exists u0, first_coefficient lgr lgi mu q = Ok u0) -> exists kr xs, fhti lgr lgi n mu dlnr q kr0 kropt = Ok (kr, xs).
  Proof.
    intros Hn Hk Hq. unfold fhti.
    assert (K : exists kr, adjust_kr lgi mu q dlnr kr0 kropt = Ok kr).
    { destruct kropt as [|[|[|k]]]; cbn; [eauto|eauto| |lia]. destruct (Rle_dec _ _); eauto. }
    destruct K as (kr & ->). cbn [bind]. destruct (Nat.eqb_spec n 0) as [Z|NZ]; [lia|]. rewrite arange_half_seq, half_of. set (s := (n / 2)%nat).
    destruct (Req_EM_T q 0) as [Q|Q].
    - rewrite xset_ok by (lens; lia). cbn [bind]. rewrite xset_ok by (lens; lia). cbn [bind]. rewrite xset_ok by (lens; lia). cbn [bind].
      rewrite slice_ok by (lens; apply slots_eq; lia). cbn [bind]. rewrite slice_ok by (lens; apply slots_eq; lia). cbn [bind]. eauto.
    - destruct (Hq Q) as [u0 ->]. cbn [bind].
      rewrite xset_ok by (lens; lia). cbn [bind]. rewrite xset_ok by (lens; lia). cbn [bind]. rewrite xset_ok by (lens; lia). cbn [bind].
      rewrite xset_ok by (lens; lia). cbn [bind].
      rewrite slice_ok by (lens; apply slots_eq; lia). cbn [bind]. rewrite slice_ok by (lens; apply slots_eq; lia). cbn [bind].
      rewrite slice_ok by (lens; apply slots_eq; lia). cbn [bind]. eauto.
  Qed.
End Gamma.
