(** Proofs about ia.py: multipoles, downsampling, amplitudes, radial profile. *)
From Coq Require Import ZArith.
From Coquelicot Require Import Coquelicot.
From Verif Require Import Base Quad Interp Spec BaseFacts QuadFacts InterpFacts NumFacts IaModel IaSpec AngFacts2.
Open Scope R_scope.

(** ** Multipoles *)
Lemma ell_nth L i : nth_error (ell_values L) i =
  if Nat.ltb i (Z.to_nat ((L + 2) / 2)) then Some (2 * i)%nat else None.
Proof.
  unfold ell_values. destruct (Nat.ltb_spec i (Z.to_nat ((L + 2) / 2))) as [H|H].
  - erewrite map_nth_error; [reflexivity|]. rewrite (nth_error_nth' _ 0%nat) by (rewrite seq_length; exact H).
    now rewrite seq_nth.
  - apply nth_error_None. rewrite map_length, seq_length. exact H.
Qed.
Lemma ell_length L : List.length (ell_values L) = Z.to_nat ((L + 2) / 2).
Proof. unfold ell_values. now rewrite map_length, seq_length. Qed.
Lemma ell_in L l : In l (ell_values L) <-> Nat.Even l /\ (Z.of_nat l <= L)%Z.
Proof.
  unfold ell_values. rewrite in_map_iff. split.
  - intros (i & <- & I). apply in_seq in I. split; [exists i; lia|].
    assert (A : (Z.of_nat i < (L + 2) / 2)%Z) by lia.
    pose proof (Z.mul_div_le (L + 2) 2 ltac:(lia)). lia.
  - intros [[i ->] H]. exists i. split; [lia|]. apply in_seq. split; [lia|].
    assert (A : (Z.of_nat i + 1 <= (L + 2) / 2)%Z) by (apply Z.div_le_lower_bound; lia). lia.
Qed.
Lemma ell_max_iff L : (ell_max_set L = Ok L <-> (L <= 11)%Z) /\ (ell_max_set L = Err "ValueError" <-> (11 < L)%Z).
Proof.
  unfold ell_max_set. destruct (Z.ltb_spec 11 L); split; split; intro; try discriminate; auto; lia.
Qed.

Lemma f_ell_ok G theta l b : (l < 12)%nat -> exists v, f_ell G theta l b = Ok v.
Proof.
  intro H. unfold f_ell. destruct (Req_EM_T theta (PI / 2)).
  - destruct (Req_EM_T b 0); [|destruct (Req_EM_T b (-2))].
    + do 12 (destruct l as [|l]; [eexists; reflexivity|]). lia.
    + do 12 (destruct l as [|l]; [eexists; reflexivity|]). lia.
    + rewrite f_general_ok by exact H. eauto.
  - rewrite f_general_ok by exact H. eauto.
Qed.
Lemma f_calc_ok G theta phi l b : (l < 12)%nat -> exists v, calculate_f_ell G theta phi l b = Ok v.
Proof. intro H. unfold calculate_f_ell. destruct (f_ell_ok G theta l b H) as [v ->]. cbn [bind]. eauto. Qed.

Lemma Ci_even i : Ci_pow (2 * i) = RtoC ((-1) ^ i).
Proof.
  induction i as [|i IH]; [reflexivity|].
  replace (2 * S i)%nat with (S (S (2 * i))) by lia. cbn [Ci_pow]. rewrite IH.
  unfold Ci, RtoC, Cmult. simpl. f_equal; ring.
Qed.
Lemma phase_0 : phase 0 = RtoC 1.
Proof. unfold phase. rewrite Rmult_0_r, cos_0, sin_0. reflexivity. Qed.

Lemma sum_ell_ok G theta b nu u n : forall s (f : nat -> R),
  (forall i, (i < s + n)%nat -> f_ell G theta (2 * i) b = Ok (f i)) -> (s + n <= nu)%nat ->
  sum_ell G theta 0 b nu u (map (fun i => (2 * i)%nat) (seq s n))
  = Ok (RtoC (sumR n (fun i => (-1) ^ (s + i) * (4 * INR (s + i) + 1) * u (s + i)%nat * f (s + i)%nat))).
Proof.
  induction n as [|n IH]; intros s f H L; [reflexivity|].
  cbn [seq map sum_ell]. unfold calculate_f_ell. rewrite H by lia. cbn [bind].
  assert (E : (2 * s / 2 = s)%nat) by (rewrite Nat.mul_comm; apply Nat.div_mul; lia). rewrite E.
  destruct (Nat.ltb_spec s nu); [|lia]. cbn [bind].
  rewrite (IH (S s) f) by (try lia; intros; apply H; lia). cbn [bind]. f_equal.
  rewrite Ci_even, phase_0, mult_INR. change (INR 2) with (1 + 1). unfold RtoC, Cplus, Cmult. cbn [fst snd].
  assert (A : forall m g, sumR (S m) g = g 0%nat + sumR m (fun i => g (S i))).
  { clear. induction m as [|m IHm]; intro g; [simpl; ring|].
    change (sumR (S (S m)) g) with (sumR (S m) g + g (S m)). rewrite IHm. simpl. ring. }
  rewrite A. f_equal; [|ring]. rewrite Nat.add_0_r.
  rewrite (sumR_ext n (fun i => (-1) ^ (s + S i) * (4 * INR (s + S i) + 1) * u (s + S i)%nat * f (s + S i)%nat)
    (fun i => (-1) ^ (S s + i) * (4 * INR (S s + i) + 1) * u (S s + i)%nat * f (S s + i)%nat))
    by (intros i _; replace (s + S i)%nat with (S s + i)%nat by lia; reflexivity).
  ring.
Qed.
Lemma wkm_value G b L u : (L <= 11)%Z ->
  exists f, (forall i, In (2 * i)%nat (ell_values L) -> f_ell G (PI / 2) (2 * i) b = Ok (f i)) /\
    wkm_f_ell G b L (List.length (ell_values L)) u
    = Ok (Rabs (sumR (List.length (ell_values L)) (fun i => (-1) ^ i * (4 * INR i + 1) * u i * f i))).
Proof.
  intro H.
  assert (B : forall i, (i < Z.to_nat ((L + 2) / 2))%nat -> (2 * i < 12)%nat).
  { intros i Hi. assert ((L + 2) / 2 <= 6)%Z by (apply Z.lt_succ_r, Z.div_lt_upper_bound; lia). lia. }
  exists (fun i => match f_ell G (PI / 2) (2 * i) b with Ok v => v | Err _ => 0 end).
  assert (F : forall i, (2 * i < 12)%nat -> f_ell G (PI / 2) (2 * i) b =
     Ok (match f_ell G (PI / 2) (2 * i) b with Ok v => v | Err _ => 0 end)).
  { intros i Hi. destruct (f_ell_ok G (PI / 2) (2 * i) b Hi) as [v ->]. reflexivity. }
  split.
  - intros i I. apply ell_in in I. apply F. lia.
  - unfold wkm_f_ell, wkm_at. rewrite ell_length. unfold ell_values.
    rewrite (sum_ell_ok G (PI / 2) b _ u _ 0 (fun i => match f_ell G (PI / 2) (2 * i) b with Ok v => v | Err _ => 0 end)).
    + cbn [bind]. rewrite Cmod_R. reflexivity.
    + intros i Hi. apply F, B. lia.
    + lia.
Qed.

(** ** Downsampling *)
Lemma every_nth {A} f (l : list A) : (1 <= f)%nat -> forall skip i,
  nth_error (every f skip l) i = nth_error l (skip + i * f).
Proof.
  intro Hf. induction l as [|x l IH]; intros skip i.
  - cbn [every]. destruct i, (skip + _)%nat; reflexivity.
  - destruct skip as [|s]; cbn [every].
    + destruct i as [|i]; [reflexivity|]. cbn [nth_error]. rewrite IH.
      replace (0 + S i * f)%nat with (S (f - 1 + i * f)) by lia. reflexivity.
    + rewrite IH. reflexivity.
Qed.
Lemma slice_nth {A} f (l : list A) i : (1 <= f)%nat -> nth_error (slice_step f l) i = nth_error l (i * f).
Proof. intro H. unfold slice_step. now rewrite every_nth. Qed.
Lemma slice_length {A} f (l : list A) i : (1 <= f)%nat ->
  (i < List.length (slice_step f l) <-> i * f < List.length l)%nat.
Proof. intro H. rewrite <- !nth_error_Some, slice_nth by exact H. reflexivity. Qed.

Lemma last_rev {A} (l : list A) x r : rev l = x :: r -> l = app (rev r) [x].
Proof. intro H. rewrite <- (rev_involutive l), H. reflexivity. Qed.
Lemma rev_ne {A} (l : list A) : l <> [] -> exists x r, rev l = x :: r.
Proof.
  intro N. destruct (rev l) as [|x r] eqn:E; [|eauto]. exfalso. apply N.
  rewrite <- (rev_involutive l), E. reflexivity.
Qed.

(** The indices kept when [n] masses are downsampled. *)
Definition kept (n f : nat) (appended : bool) : list nat :=
  app (slice_step f (seq 0 n)) (if appended then [(n - 1)%nat] else []).

Lemma slice_map {A B} (g : A -> B) f l : forall s, every f s (map g l) = map g (every f s l).
Proof.
  induction l as [|x l IH]; intro s; [reflexivity|]. cbn [map every].
  destruct s; cbn [map]; rewrite IH; reflexivity.
Qed.

Section Down.
  Context {A : Type} (differ : A -> A -> bool).
  Lemma down_shape size nmass (q : list A) : (1 <= nmass < size)%nat -> List.length q = size ->
    exists x y d, q = app d [y] /\ (exists e, slice_step (size / nmass) q = app e [x]) /\
      downsample differ true size nmass q =
        Ok (app (slice_step (size / nmass) q) (if differ x y then [y] else [])).
  Proof.
    intros H L. unfold downsample. cbn [negb].
    destruct (Nat.eqb_spec size nmass); [lia|]. destruct (Nat.ltb_spec size nmass); [lia|].
    destruct (Nat.eqb_spec nmass 0); [lia|].
    assert (F : (1 <= size / nmass)%nat) by (apply Nat.div_le_lower_bound; lia).
    assert (N : q <> []) by (intro E; rewrite E in L; simpl in L; lia).
    assert (M : slice_step (size / nmass) q <> []).
    { intro E. pose proof (proj2 (slice_length (size / nmass) q 0 F) ltac:(lia)) as Z.
      rewrite E in Z. simpl in Z. lia. }
    destruct (rev_ne _ N) as (y & r & E1). destruct (rev_ne _ M) as (x & e & E2).
    rewrite E1, E2. exists x, y, (rev r). split; [now apply last_rev|]. split.
    - exists (rev e). now apply last_rev.
    - destruct (differ x y); [reflexivity|]. now rewrite app_nil_r.
  Qed.
End Down.

Lemma slice_enough (A : Type) (q : list A) size nmass : (1 <= nmass <= size)%nat -> List.length q = size ->
  (nmass <= List.length (slice_step (size / nmass) q))%nat.
Proof.
  intros H L. assert (F : (1 <= size / nmass)%nat) by (apply Nat.div_le_lower_bound; lia).
  assert (Z : (nmass - 1 < List.length (slice_step (size / nmass) q))%nat); [|lia].
  apply slice_length; [exact F|]. rewrite L.
  pose proof (Nat.mul_div_le size nmass ltac:(lia)). nia.
Qed.

Lemma downsample_1d size nmass q : (1 <= nmass <= size)%nat -> List.length q = size ->
  exists d, downsample1 true size nmass q = Ok d /\ (nmass <= List.length d)%nat /\
    hd 0 d = hd 0 q /\ last d 0 = last q 0 /\ (size = nmass -> d = q) /\
    (forall i j, (i < j < List.length d)%nat -> exists a b, (a < b < size)%nat /\
       nth i d 0 = nth a q 0 /\ nth j d 0 = nth b q 0).
Proof.
  intros H L. destruct (Nat.eq_dec size nmass) as [E|N].
  - exists q. unfold downsample1, downsample. cbn [negb]. rewrite E, Nat.eqb_refl.
    repeat split; auto; try lia. intros i j Hij. exists i, j. split; [lia|auto].
  - destruct (down_shape neqR size nmass q ltac:(lia) L) as (x & y & d0 & Q & (e & S) & D).
    assert (F : (1 <= size / nmass)%nat) by (apply Nat.div_le_lower_bound; lia).
    exists (app (slice_step (size / nmass) q) (if neqR x y then [y] else [])).
    split; [exact D|]. pose proof (slice_enough _ q size nmass ltac:(lia) L) as En.
    split; [rewrite app_length; lia|].
    assert (HD : forall t : list R, hd 0 (app (slice_step (size / nmass) q) t) = hd 0 q).
    { intro t. destruct q as [|q0 q']; [simpl in L; lia|]. reflexivity. }
    split; [apply HD|]. split.
    { assert (LY : last q 0 = y) by (rewrite Q; apply last_last). rewrite LY. destruct (neqR x y) eqn:Z.
      - now rewrite last_last.
      - rewrite app_nil_r, S, last_last. unfold neqR in Z. destruct (Req_EM_T x y); [assumption|discriminate]. }
    split; [intro; contradiction|].
    intros i j Hij.
    assert (K : forall i, (i < List.length (slice_step (size / nmass) q))%nat ->
      (i * (size / nmass) < size)%nat /\
      nth i (app (slice_step (size / nmass) q) (if neqR x y then [y] else [])) 0 = nth (i * (size / nmass)) q 0).
    { intros m Hm. pose proof (proj1 (slice_length (size / nmass) q m F) Hm) as Hm'. rewrite L in Hm'.
      split; [exact Hm'|]. rewrite app_nth1 by exact Hm.
      pose proof (slice_nth (size / nmass) q m F) as Z.
      rewrite (nth_error_nth' _ 0 Hm), (nth_error_nth' q 0) in Z by (rewrite L; exact Hm').
      injection Z as Z. exact Z. }
    destruct (K i) as [K1 K2].
    { rewrite app_length in Hij. destruct (neqR x y); simpl in Hij; lia. }
    destruct (Nat.lt_ge_cases j (List.length (slice_step (size / nmass) q))) as [J|J].
    + destruct (K j J) as [K3 K4]. exists (i * (size / nmass))%nat, (j * (size / nmass))%nat.
      split; [nia|]. split; [exact K2|exact K4].
    + destruct (neqR x y) eqn:Z; [|rewrite app_nil_r in Hij; lia].
      assert (J' : j = List.length (slice_step (size / nmass) q)) by (rewrite app_length in Hij; simpl in Hij; lia).
      assert (LQ : nth (size - 1) q 0 = y).
      { rewrite <- L, Q, app_length. simpl.
        replace (List.length d0 + 1 - 1)%nat with (List.length d0) by lia.
        rewrite app_nth2, Nat.sub_diag by lia. reflexivity. }
      exists (i * (size / nmass))%nat, (size - 1)%nat.
      assert (NE : (i * (size / nmass) <> size - 1)%nat \/ (i * (size / nmass) = size - 1)%nat) by lia.
      destruct NE as [NE|NE].
      * split; [lia|]. split; [exact K2|]. rewrite J'. rewrite app_nth2, Nat.sub_diag by lia. simpl. now rewrite LQ.
      * exfalso.
        (* then i is the last index kept and its value is the last value *)
        assert (i = List.length (slice_step (size / nmass) q) - 1)%nat.
        { destruct (Nat.eq_dec i (List.length (slice_step (size / nmass) q) - 1)); [assumption|].
          assert (i + 1 < List.length (slice_step (size / nmass) q))%nat by lia.
          pose proof (proj1 (slice_length (size / nmass) q (i + 1) F) H0). nia. }
        assert (XQ : nth i (slice_step (size / nmass) q) 0 = x).
        { rewrite H0, S, app_length. simpl.
          replace (List.length e + 1 - 1)%nat with (List.length e) by lia.
          rewrite app_nth2, Nat.sub_diag by lia. reflexivity. }
        rewrite app_nth1 in K2 by lia. rewrite XQ, NE, LQ in K2.
        unfold neqR in Z. destruct (Req_EM_T x y); [discriminate|contradiction].
Qed.

(** All quantities without ties with their last entry keep the same indices. *)
Lemma map_nth_seq {A} (d : A) q : q = map (fun i => nth i q d) (seq 0 (List.length q)).
Proof.
  induction q as [|x q IH]; [reflexivity|]. cbn [List.length seq map nth]. f_equal.
  rewrite <- seq_shift, map_map. cbn [nth]. exact IH.
Qed.
Definition appended (size f : nat) : bool := negb (Nat.eqb ((size - 1) mod f) 0).
Lemma kept_same {A} (differ : A -> A -> bool) (d : A) size nmass q :
  (1 <= nmass < size)%nat -> List.length q = size ->
  (forall i, (i < size - 1)%nat -> differ (nth i q d) (nth (size - 1) q d) = true) ->
  differ (nth (size - 1) q d) (nth (size - 1) q d) = false ->
  downsample differ true size nmass q =
    Ok (map (fun i => nth i q d) (kept size (size / nmass) (appended size (size / nmass)))).
Proof.
  intros H L Hd Hl.
  destruct (down_shape differ size nmass q H L) as (x & y & d0 & Q & (e & S) & D). rewrite D. f_equal.
  set (f := (size / nmass)%nat) in *.
  assert (F : (1 <= f)%nat) by (apply Nat.div_le_lower_bound; lia).
  unfold kept. rewrite map_app. f_equal.
  { rewrite (map_nth_seq d q) at 1. rewrite L. unfold slice_step. apply slice_map. }
  assert (LQ : nth (size - 1) q d = y).
  { rewrite <- L, Q, app_length. simpl. replace (List.length d0 + 1 - 1)%nat with (List.length d0) by lia.
    rewrite app_nth2, Nat.sub_diag by lia. reflexivity. }
  assert (X : nth (List.length e * f) q d = x /\ (List.length e * f < size)%nat /\ (size <= (List.length e + 1) * f)%nat).
  { assert (K : (List.length e < List.length (slice_step f q))%nat) by (rewrite S, app_length; simpl; lia).
    pose proof (proj1 (slice_length f q (List.length e) F) K) as K'. rewrite L in K'.
    split; [|split; [exact K'|]].
    - pose proof (slice_nth f q (List.length e) F) as Z.
      rewrite (nth_error_nth' q d) in Z by (rewrite L; exact K').
      rewrite S, nth_error_app2, Nat.sub_diag in Z by lia. simpl in Z. now injection Z.
    - destruct (Nat.le_gt_cases size ((List.length e + 1) * f)); [assumption|].
      assert (Z : (List.length e + 1 < List.length (slice_step f q))%nat) by (apply slice_length; [exact F|lia]).
      rewrite S, app_length in Z. simpl in Z. lia. }
  destruct X as (X & X1 & X2). unfold appended.
  destruct (Nat.eqb_spec ((size - 1) mod f) 0) as [E|E]; cbn [negb].
  - assert (Z : (List.length e * f = size - 1)%nat).
    { pose proof (Nat.div_mod (size - 1) f ltac:(lia)) as DM. rewrite E in DM.
      set (t := ((size - 1) / f)%nat) in *.
      assert (t = List.length e) by nia. nia. }
    rewrite Z, LQ in X. subst x. rewrite LQ in Hl. rewrite Hl. reflexivity.
  - assert (Z : (List.length e * f < size - 1)%nat).
    { destruct (Nat.eq_dec (List.length e * f) (size - 1)) as [Z|Z]; [|lia].
      exfalso. apply E. rewrite <- Z. apply Nat.mod_mul. lia. }
    specialize (Hd _ Z). rewrite X, LQ in Hd. rewrite Hd. simpl. now rewrite LQ.
Qed.

Lemma all_differ_refl x : x <> [] -> all_differ x x = false.
Proof.
  destruct x as [|a x]; [congruence|]. intros _. unfold all_differ. simpl. unfold neqR at 1.
  destruct (Req_EM_T a a); [reflexivity|congruence].
Qed.
Lemma kept_last size f : (1 <= f)%nat -> (1 <= size)%nat -> last (kept size f (appended size f)) 0%nat = (size - 1)%nat.
Proof.
  intros F N. unfold kept, appended. destruct (Nat.eqb_spec ((size - 1) mod f) 0) as [E|E]; cbn [negb].
  - rewrite app_nil_r.
    assert (M : slice_step f (seq 0 size) <> []).
    { intro Z. pose proof (proj2 (slice_length f (seq 0 size) 0 F)) as Y. rewrite Z, seq_length in Y. simpl in Y. lia. }
    destruct (rev_ne _ M) as (x & r & R). apply last_rev in R. rewrite R, last_last.
    set (e := rev r) in *.
    assert (K : (List.length e < List.length (slice_step f (seq 0 size)))%nat) by (rewrite R, app_length; simpl; lia).
    pose proof (proj1 (slice_length f _ _ F) K) as K'. rewrite seq_length in K'.
    pose proof (slice_nth f (seq 0 size) (List.length e) F) as Z.
    rewrite (nth_error_nth' (seq 0 size) 0%nat) in Z by (rewrite seq_length; exact K').
    rewrite seq_nth in Z by exact K'.
    rewrite R, nth_error_app2, Nat.sub_diag in Z by lia. simpl in Z. injection Z as Z.
    assert (X2 : (size <= (List.length e + 1) * f)%nat).
    { destruct (Nat.le_gt_cases size ((List.length e + 1) * f)); [assumption|].
      assert (Y : (List.length e + 1 < List.length (slice_step f (seq 0 size)))%nat)
        by (apply slice_length; [exact F|rewrite seq_length; lia]).
      rewrite R, app_length in Y. simpl in Y. lia. }
    pose proof (Nat.div_mod (size - 1) f ltac:(lia)) as DM. rewrite E in DM.
    set (t := ((size - 1) / f)%nat) in *. assert (t = List.length e) by nia. nia.
  - now rewrite last_last.
Qed.
Lemma kept_sorted size f a : (1 <= f)%nat -> a = appended size f -> (1 <= size)%nat ->
  forall i j x y, (i < j)%nat -> nth_error (kept size f a) i = Some x -> nth_error (kept size f a) j = Some y -> (x < y < size)%nat.
Proof.
  intros F -> N i j x y Hij Hx Hy.
  assert (K : forall m v, nth_error (slice_step f (seq 0 size)) m = Some v -> v = (m * f)%nat /\ (v < size)%nat).
  { intros m v Hm. assert (B : (m < List.length (slice_step f (seq 0 size)))%nat) by (apply nth_error_Some; congruence).
    pose proof (proj1 (slice_length f _ _ F) B) as B'. rewrite seq_length in B'.
    rewrite slice_nth in Hm by exact F. rewrite (nth_error_nth' _ 0%nat) in Hm by (rewrite seq_length; exact B').
    rewrite seq_nth in Hm by exact B'. injection Hm as <-. split; [reflexivity|exact B']. }
  unfold kept, appended in *.
  set (s := slice_step f (seq 0 size)) in *.
  assert (I : (i < List.length s)%nat).
  { assert (B : (j < List.length (app s (if negb (Nat.eqb ((size - 1) mod f) 0) then [(size - 1)%nat] else [])))%nat)
      by (apply nth_error_Some; congruence).
    rewrite app_length in B. destruct (negb _); simpl in B; lia. }
  rewrite nth_error_app1 in Hx by exact I. destruct (K _ _ Hx) as [X1 X2].
  destruct (Nat.lt_ge_cases j (List.length s)) as [J|J].
  - rewrite nth_error_app1 in Hy by exact J. destruct (K _ _ Hy) as [Y1 Y2]. nia.
  - rewrite nth_error_app2 in Hy by exact J.
    destruct (Nat.eqb_spec ((size - 1) mod f) 0) as [E|E]; cbn [negb] in Hy.
    + destruct (j - List.length s)%nat; discriminate.
    + destruct (j - List.length s)%nat as [|t]; simpl in Hy; [|destruct t; discriminate]. injection Hy as <-.
      assert (x <> size - 1)%nat.
      { intro Z. apply E. rewrite <- Z, X1. apply Nat.mod_mul. lia. }
      lia.
Qed.

(** ** Radial profile *)
Lemma gamma_cap r rvir a b rc : gamma_r r rvir a b rc <= 3 / 10.
Proof. unfold gamma_r. apply Rmin_r. Qed.
Lemma gamma_core r rvir a b rc : r < rc -> gamma_r r rvir a b rc = gamma_r rc rvir a b rc.
Proof.
  intro H. unfold gamma_r. destruct (Rlt_dec r rc); [|lra]. destruct (Rlt_dec rc rc); [lra|reflexivity].
Qed.
Lemma fpow_anti x y b : b <= 0 -> 0 < x -> x <= y -> fpow y b <= fpow x b.
Proof.
  intros Hb Hx Hy. rewrite !fpow_pos by lra. unfold Rpower.
  assert (ln x <= ln y) by (destruct (Rle_lt_or_eq_dec _ _ Hy) as [L| ->]; [left; apply ln_increasing; lra|lra]).
  destruct (Req_dec b 0) as [->|N]; [rewrite !Rmult_0_l; lra|].
  assert (E : b * ln y <= b * ln x) by nra.
  destruct (Rle_lt_or_eq_dec _ _ E) as [L| ->]; [left; now apply exp_increasing|lra].
Qed.
Lemma gamma_decreasing r1 r2 rvir a b rc : 0 <= a -> b <= 0 -> 0 < rvir -> 0 < rc -> r1 <= r2 ->
  gamma_r r2 rvir a b rc <= gamma_r r1 rvir a b rc.
Proof.
  intros Ha Hb Hv Hc Hr. unfold gamma_r. apply Rle_min_compat_r || idtac.
  assert (D : forall x y, 0 < x -> x <= y -> a * fpow (y / rvir) b <= a * fpow (x / rvir) b).
  { intros x y Hx Hy. apply Rmult_le_compat_l; [exact Ha|]. apply fpow_anti; [exact Hb| |].
    - apply Rdiv_lt_0_compat; lra.
    - unfold Rdiv. apply Rmult_le_compat_r; [|exact Hy]. left. now apply Rinv_0_lt_compat. }
  destruct (Rlt_dec r2 rc), (Rlt_dec r1 rc); try lra; apply D; lra.
Qed.
Lemma gamma_nonneg r rvir a b rc : 0 <= a -> 0 <= gamma_r r rvir a b rc.
Proof.
  intro Ha. unfold gamma_r. apply Rmin_glb; [|lra].
  destruct (Rlt_dec r rc); apply Rmult_le_pos; auto using fpow_ge0.
Qed.
Lemma nfw_nonneg r rs rvir t : 0 < r -> 0 < rs -> 0 <= nfw_r r rs rvir t.
Proof.
  intros H1 H2. unfold nfw_r.
  assert (P : 0 < r / rs) by (apply Rdiv_lt_0_compat; lra).
  assert (0 <= 1 / (r / rs * (1 + r / rs) ^ 2)).
  { left. apply Rdiv_lt_0_compat; [lra|]. apply Rmult_lt_0_compat; [exact P|]. apply pow_lt. lra. }
  destruct t; [|assumption]. destruct (Rle_dec rvir r); lra.
Qed.
Lemma mnfw_pos rs c : 0 < rs -> 0 < c -> 0 < mnfw rs c.
Proof.
  intros H1 H2. unfold mnfw. pose proof PI_RGT_0.
  apply Rmult_lt_0_compat; [apply Rmult_lt_0_compat; [lra|now apply pow_lt]|].
  assert (E : ln (1 + c) = - ln (/ (1 + c))) by (rewrite ln_Rinv; lra).
  assert (D : ln (/ (1 + c)) < / (1 + c) - 1).
  { assert (P : 0 < / (1 + c)) by (apply Rinv_0_lt_compat; lra).
    assert (Q : / (1 + c) < 1) by (rewrite <- Rinv_1; apply Rinv_lt_contravar; lra).
    rewrite <- (ln_exp (/ (1 + c) - 1)). apply ln_increasing; [exact P|].
    pose proof (exp_ineq1 (/ (1 + c) - 1) ltac:(lra)). lra. }
  replace (c / (1 + c)) with (1 - / (1 + c)) by (field; lra). lra.
Qed.

(** ** Luminosity scaling *)
Lemma ampl_pivot g l0 b bl : 0 < l0 -> alignment_ampl g l0 b bl l0 = g.
Proof.
  intro H. unfold alignment_ampl. destruct (Rlt_dec l0 l0); [lra|].
  replace (l0 / l0) with 1 by (field; lra). rewrite fpow_one. ring.
Qed.
Lemma ampl_same g l0 b l : alignment_ampl g l0 b b l = g * fpow (l / l0) b.
Proof. unfold alignment_ampl. destruct (Rlt_dec l0 l); reflexivity. Qed.
Lemma ampl_pos g l0 b bl l : 0 < g -> 0 < l0 -> 0 < l -> 0 < alignment_ampl g l0 b bl l.
Proof.
  intros. unfold alignment_ampl. assert (0 < l / l0) by (apply Rdiv_lt_0_compat; lra).
  destruct (Rlt_dec l0 l); apply Rmult_lt_0_compat; auto using fpow_gt0.
Qed.
Definition slope_between (a b c : R) : Prop := Rmin a b <= c <= Rmax a b.
(** Local logarithmic slope: between any two luminosities on the same side of the pivot. *)
Lemma ampl_slope g l0 b bl x y : 0 < l0 -> 0 < x -> 0 < y ->
  (l0 < x /\ l0 < y -> alignment_ampl g l0 b bl y = alignment_ampl g l0 b bl x * fpow (y / x) b) /\
  (x <= l0 /\ y <= l0 -> alignment_ampl g l0 b bl y = alignment_ampl g l0 b bl x * fpow (y / x) bl).
Proof.
  intros H0 Hx Hy.
  assert (P : 0 < x / l0) by (apply Rdiv_lt_0_compat; lra).
  assert (Q : 0 < y / x) by (apply Rdiv_lt_0_compat; lra).
  assert (E : y / l0 = x / l0 * (y / x)) by (field; lra).
  unfold alignment_ampl. split; intros [A B]; destruct (Rlt_dec l0 x), (Rlt_dec l0 y); try lra;
    rewrite E, fpow_mult by assumption; ring.
Qed.
Lemma fpow_cont b l0 l : 0 < l0 -> 0 < l -> continuous (fun t => fpow (t / l0) b) l.
Proof.
  intros H0 Hl. apply (continuous_ext_loc _ (fun t => Rpower (t / l0) b)).
  - exists (mkposreal l Hl). intros t Ht. unfold ball in Ht; simpl in Ht. unfold AbsRing_ball, abs, minus, plus, opp in Ht; simpl in Ht.
    apply Rabs_lt_between in Ht. symmetry. apply fpow_pos. apply Rdiv_lt_0_compat; lra.
  - apply (ex_derive_continuous (fun t => Rpower (t / l0) b)). unfold Rpower. auto_derive.
    apply Rmult_lt_0_compat; [lra|now apply Rinv_0_lt_compat].
Qed.
Lemma ampl_cont g l0 b bl l : 0 < l0 -> 0 < l -> continuous (alignment_ampl g l0 b bl) l.
Proof.
  intros H0 Hl.
  assert (C1 : continuous (fun t => g * fpow (t / l0) b) l) by (apply (continuous_scal_r (K := R_AbsRing) (V := R_NormedModule)), fpow_cont; assumption).
  assert (C2 : continuous (fun t => g * fpow (t / l0) bl) l) by (apply (continuous_scal_r (K := R_AbsRing) (V := R_NormedModule)), fpow_cont; assumption).
  apply filterlim_locally. intro eps.
  destruct (proj1 (filterlim_locally _ _) C1 eps) as [d1 D1].
  destruct (proj1 (filterlim_locally _ _) C2 eps) as [d2 D2].
  destruct (Rtotal_order l l0) as [L|[E|L]].
  - assert (P : 0 < Rmin d2 (l0 - l)) by (apply Rmin_glb_lt; [apply cond_pos|lra]).
    exists (mkposreal _ P). intros t Ht.
    assert (T : ball l d2 t) by (eapply ball_le; [|exact Ht]; apply Rmin_l).
    assert (T2 : ball l (l0 - l) t) by (eapply ball_le; [|exact Ht]; apply Rmin_r).
    unfold ball in T2; simpl in T2. unfold AbsRing_ball, abs, minus, plus, opp in T2; simpl in T2. apply Rabs_lt_between in T2.
    unfold alignment_ampl. destruct (Rlt_dec l0 t); [lra|]. destruct (Rlt_dec l0 l); [lra|]. now apply D2.
  - subst l.
    assert (P : 0 < Rmin d1 d2) by (apply Rmin_glb_lt; apply cond_pos).
    exists (mkposreal _ P). intros t Ht.
    assert (T1 : ball l0 d1 t) by (eapply ball_le; [|exact Ht]; apply Rmin_l).
    assert (T2 : ball l0 d2 t) by (eapply ball_le; [|exact Ht]; apply Rmin_r).
    rewrite (ampl_pivot g l0 b bl H0).
    assert (E1 : forall c, g * fpow (l0 / l0) c = g) by (intro c; replace (l0 / l0) with 1 by (field; lra); rewrite fpow_one; ring).
    specialize (D1 t T1). specialize (D2 t T2). rewrite E1 in D1, D2.
    unfold alignment_ampl. destruct (Rlt_dec l0 t); assumption.
  - assert (P : 0 < Rmin d1 (l - l0)) by (apply Rmin_glb_lt; [apply cond_pos|lra]).
    exists (mkposreal _ P). intros t Ht.
    assert (T : ball l d1 t) by (eapply ball_le; [|exact Ht]; apply Rmin_l).
    assert (T2 : ball l (l - l0) t) by (eapply ball_le; [|exact Ht]; apply Rmin_r).
    unfold ball in T2; simpl in T2. unfold AbsRing_ball, abs, minus, plus, opp in T2; simpl in T2. apply Rabs_lt_between in T2.
    unfold alignment_ampl. destruct (Rlt_dec l0 t); [|lra]. destruct (Rlt_dec l0 l); [|lra]. now apply D1.
Qed.
Lemma broken_same nl xlum pdf g l0 b : (1 <= nl)%nat ->
  broken_powerlaw nl xlum pdf g l0 b b = g * mean_l_l0_to_beta nl xlum pdf l0 b.
Proof.
  intro H. unfold broken_powerlaw, mean_l_l0_to_beta. rewrite <- simpson_scal.
  apply simpson_ext; [exact H| |reflexivity]. intros i _. rewrite ampl_same. ring.
Qed.
