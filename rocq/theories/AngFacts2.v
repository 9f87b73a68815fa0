(** The angular coefficients are the integrals they stand for. *)
From Coq Require Import ZArith QArith Qreals.
From Coquelicot Require Import Coquelicot.
From Verif Require Import Base Quad Interp Spec QuadFacts IaModel IaSpec AngFacts.
Open Scope R_scope.

(** ** Integrals of cos^n *)
Definition Kc (n : nat) : R := RInt (fun x => cos x ^ n) 0 (2 * PI).
Lemma Kc_cont n x : continuous (fun x : R => cos x ^ n) x.
Proof. apply (ex_derive_continuous (fun x : R => cos x ^ n)). apply (ex_derive_pow cos). auto_derive. exact I. Qed.
Lemma Kc_is n : is_RInt (fun x => cos x ^ n) 0 (2 * PI) (Kc n).
Proof.
  apply (RInt_correct (V := R_CompleteNormedModule)).
  apply (ex_RInt_continuous (V := R_CompleteNormedModule)). intros z _. apply Kc_cont.
Qed.
Lemma Kc_step n : (INR n + 2) * Kc (S (S n)) = (INR n + 1) * Kc n.
Proof.
  assert (D : forall x, is_derive (fun x : R => cos x ^ S n * sin x) x
     ((INR n + 2) * cos x ^ S (S n) - (INR n + 1) * cos x ^ n)).
  { intro x.
    assert (D1 : is_derive cos x (- sin x)) by (auto_derive; [exact I|ring]).
    assert (D2 : is_derive sin x (cos x)) by (auto_derive; [exact I|ring]).
    pose proof (is_derive_pow _ (S n) x _ D1) as D3.
    evar_last. { apply (is_derive_mult _ _ x _ _ D3 D2). intros; apply Rmult_comm. }
    unfold plus, mult; simpl. change (match n with 0%nat => 1 | S _ => INR n + 1 end) with (INR (S n)).
    rewrite S_INR. pose proof (sin2_cos2 x) as E. unfold Rsqr in E.
    replace (sin x * sin x) with (1 - cos x * cos x) by lra.
    transitivity (- (INR n + 1) * cos x ^ n * (sin x * sin x) + cos x * cos x ^ n * cos x); [ring|].
    replace (sin x * sin x) with (1 - cos x * cos x) by lra. ring. }
  assert (E : is_RInt (fun x => (INR n + 2) * cos x ^ S (S n) - (INR n + 1) * cos x ^ n) 0 (2 * PI) 0).
  { evar_last.
    - apply (is_RInt_derive (V := R_CompleteNormedModule) (fun x : R => cos x ^ S n * sin x)).
      + intros x _. apply D.
      + intros x _. apply (continuous_minus (V := R_NormedModule));
          apply (continuous_scal_r (K := R_AbsRing) (V := R_NormedModule)), Kc_cont.
    - unfold minus, plus, opp; simpl. rewrite sin_2PI, sin_0. ring. }
  assert (F : is_RInt (fun x => (INR n + 2) * cos x ^ S (S n) - (INR n + 1) * cos x ^ n) 0 (2 * PI)
                ((INR n + 2) * Kc (S (S n)) - (INR n + 1) * Kc n)).
  { apply (is_RInt_minus (V := R_NormedModule)); apply (is_RInt_scal (V := R_NormedModule)), Kc_is. }
  apply (is_RInt_unique (V := R_CompleteNormedModule)) in E.
  apply (is_RInt_unique (V := R_CompleteNormedModule)) in F. rewrite E in F. lra.
Qed.
Lemma Kc_0 : Kc 0 = 2 * PI.
Proof.
  unfold Kc. rewrite (RInt_ext (V := R_CompleteNormedModule) _ (fun _ => 1)) by (intros; reflexivity).
  rewrite RInt_const. unfold scal; simpl; unfold mult; simpl. ring.
Qed.
Lemma Kc_1 : Kc 1 = 0.
Proof.
  unfold Kc. apply (is_RInt_unique (V := R_CompleteNormedModule)). evar_last.
  - apply (is_RInt_derive (V := R_CompleteNormedModule) sin).
    + intros x _. auto_derive; [exact I|]. simpl. ring.
    + intros x _. apply Kc_cont.
  - unfold minus, plus, opp; simpl. rewrite sin_2PI, sin_0. ring.
Qed.

Definition gjR (j : nat) : R := nth j gj 0.
Lemma gj_at j : (j < 12)%nat -> at_ gj j = Ok (gjR j).
Proof. intro H. do 12 (destruct j as [|j]; [reflexivity|]). lia. Qed.
Lemma gj_out j : (12 <= j)%nat -> at_ gj j = Err "IndexError".
Proof. intro H. do 12 (destruct j as [|j]; [lia|]). destruct j; reflexivity. Qed.
Lemma gj_is j : (j < 12)%nat -> is_RInt (fun phi => cos phi ^ j * cos (2 * phi)) 0 (2 * PI) (gjR j).
Proof.
  intro H.
  assert (E : gjR j = 2 * Kc (S (S j)) - Kc j).
  { pose proof Kc_0 as K0. pose proof Kc_1 as K1.
    pose proof (Kc_step 0) as S0. pose proof (Kc_step 1) as S1. pose proof (Kc_step 2) as S2.
    pose proof (Kc_step 3) as S3. pose proof (Kc_step 4) as S4. pose proof (Kc_step 5) as S5.
    pose proof (Kc_step 6) as S6. pose proof (Kc_step 7) as S7. pose proof (Kc_step 8) as S8.
    pose proof (Kc_step 9) as S9. pose proof (Kc_step 10) as S10. pose proof (Kc_step 11) as S11.
    cbn [INR] in *.
    do 12 (destruct j as [|j]; [unfold gjR, gj; cbn [nth]; lra|]). lia. }
  rewrite E. apply (is_RInt_ext (V := R_NormedModule) (fun phi => 2 * cos phi ^ S (S j) - cos phi ^ j)).
  - intros x _. change (@eq R (2 * cos x ^ S (S j) - cos x ^ j) (cos x ^ j * cos (2 * x))).
    rewrite cos_2a_cos. simpl. ring.
  - apply (is_RInt_minus (V := R_NormedModule)); [apply (is_RInt_scal (V := R_NormedModule))|]; apply Kc_is.
Qed.

(** ** Finite sums *)
Lemma sumR_f_R0 n f : sum_f_R0 f n = sumR (n + 1) f.
Proof.
  induction n as [|n IH]; simpl; [lra|]. rewrite IH. replace (n + 1)%nat with (S n) by lia. reflexivity.
Qed.
Lemma sumR_mult_r n f c : sumR n f * c = sumR n (fun i => f i * c).
Proof. induction n; simpl; [ring|]. rewrite <- IHn. ring. Qed.
Lemma is_RInt_sumR a b n (f : nat -> R -> R) (I : nat -> R) :
  (forall i, (i < n)%nat -> is_RInt (f i) a b (I i)) ->
  is_RInt (fun x => sumR n (fun i => f i x)) a b (sumR n I).
Proof.
  induction n as [|n IH]; intro H; simpl.
  - evar_last; [apply (is_RInt_const (V := R_NormedModule))|]. unfold scal; simpl; unfold mult; simpl. ring.
  - apply (is_RInt_plus (V := R_NormedModule)); [apply IH; intros; apply H; lia|apply H; lia].
Qed.

Lemma binom_C m j : (j <= m)%nat -> binom (INR m) j = Binomial.C m j.
Proof.
  induction j as [|j IH]; intro H.
  - simpl. unfold Binomial.C. rewrite Nat.sub_0_r. simpl. field. apply INR_fact_neq_0.
  - cbn [binom]. rewrite IH by lia. unfold Binomial.C.
    replace (m - j)%nat with (S (m - S j)) by lia.
    rewrite !fact_simpl, !mult_INR, !S_INR, minus_INR by lia. rewrite S_INR.
    assert (INR (S j) <= INR m) by (apply le_INR; lia). rewrite S_INR in H0. pose proof (pos_INR j).
    field. repeat split; try lra; try apply INR_fact_neq_0.
Qed.
Lemma binom_thm x y m : (x + y) ^ m = sumR (m + 1) (fun j => binom (INR m) j * x ^ j * y ^ (m - j)).
Proof.
  rewrite binomial, sumR_f_R0. apply sumR_ext. intros j H. rewrite binom_C by lia. reflexivity.
Qed.

(** ** Legendre coefficients, in rational arithmetic *)
Fixpoint evalQ (l : list Q) (y : R) : R := match l with [] => 0 | a :: l => Q2R a + y * evalQ l y end.
Fixpoint paddQ (l m : list Q) : list Q :=
  match l, m with
  | [], _ => m
  | _, [] => l
  | a :: l, b :: m => Qplus a b :: paddQ l m
  end.
Lemma eval_add l : forall m y, evalQ (paddQ l m) y = evalQ l y + evalQ m y.
Proof.
  induction l as [|a l IH]; intros [|b m] y; simpl; try lra.
  rewrite IH, Q2R_plus. ring.
Qed.
Lemma eval_scale c l y : evalQ (map (Qmult c) l) y = Q2R c * evalQ l y.
Proof. induction l as [|a l IH]; simpl; [ring|]. rewrite IH, Q2R_mult. ring. Qed.
Definition Qn (n : nat) : Q := inject_Z (Z.of_nat n).
Lemma Qn_R n : Q2R (Qn n) = INR n.
Proof. unfold Qn, Q2R, inject_Z. simpl. rewrite <- INR_IZR_INZ. field. Qed.
Lemma Q0_R : Q2R 0 = 0. Proof. unfold Q2R; simpl; lra. Qed.
Lemma Q1_R : Q2R 1 = 1. Proof. unfold Q2R; simpl; lra. Qed.

Fixpoint legQ (l : nat) : list Q * list Q :=
  match l with
  | O => ([1%Q], [0%Q; 1%Q])
  | S k => let (p, q) := legQ k in
      (q, map (Qmult (Qinv (Qn (k + 2))))
            (paddQ (0%Q :: map (Qmult (Qn (2 * k + 3))) q) (map (Qmult (Qopp (Qn (k + 1)))) p)))
  end.
Lemma legQ_ok l y : legendre2 l y = (evalQ (fst (legQ l)) y, evalQ (snd (legQ l)) y).
Proof.
  induction l as [|k IH].
  - simpl. rewrite Q0_R, Q1_R. f_equal; ring.
  - cbn [legendre2 legQ]. rewrite IH. destruct (legQ k) as [p q]. cbn [fst snd]. f_equal.
    rewrite eval_scale, eval_add. cbn [evalQ]. rewrite !eval_scale, Q2R_opp, Q0_R.
    assert (N : ~ (Qn (k + 2) == 0)%Q).
    { intro E. apply Qeq_eqR in E. rewrite Qn_R, Q0_R, plus_INR in E. simpl in E. pose proof (pos_INR k). lra. }
    rewrite Q2R_inv by exact N. rewrite !Qn_R, !plus_INR, mult_INR. simpl INR. pose proof (pos_INR k).
    field. lra.
Qed.

Fixpoint binomQ (x : Q) (k : nat) : Q :=
  match k with O => 1%Q | S j => Qdiv (Qmult (binomQ x j) (Qminus x (Qn j))) (Qn k) end.
Lemma binomQ_ok x k : Q2R (binomQ x k) = binom (Q2R x) k.
Proof.
  induction k as [|j IH]; [apply Q1_R|]. cbn [binomQ binom].
  assert (N : ~ (Qn (S j) == 0)%Q).
  { intro E. apply Qeq_eqR in E. rewrite Qn_R, Q0_R, S_INR in E. pose proof (pos_INR j). lra. }
  rewrite Q2R_div by exact N. rewrite Q2R_mult, Q2R_minus, IH, !Qn_R. reflexivity.
Qed.
Fixpoint pow2Q (n : nat) : Q := match n with O => 1%Q | S k => Qmult 2 (pow2Q k) end.
Lemma pow2Q_ok n : Q2R (pow2Q n) = 2 ^ n.
Proof. induction n; [apply Q1_R|]. simpl. rewrite Q2R_mult, IHn. unfold Q2R at 1. simpl. lra. Qed.

(** The coefficient of y^m that calculate_f_ell uses. *)
Definition cR (l m : nat) : R := 2 ^ l * (binom (INR l) m * binom (1 / 2 * (INR l + INR m - 1)) l).
Definition cQ (l m : nat) : Q :=
  Qmult (pow2Q l) (Qmult (binomQ (Qn l) m) (binomQ (Qmult (1 # 2) (Qminus (Qplus (Qn l) (Qn m)) 1)) l)).
Lemma cQ_ok l m : Q2R (cQ l m) = cR l m.
Proof.
  unfold cQ, cR. rewrite !Q2R_mult, pow2Q_ok, !binomQ_ok, Q2R_mult, Q2R_minus, Q2R_plus, !Qn_R, Q1_R.
  replace (Q2R (1 # 2)) with (1 / 2) by (unfold Q2R; simpl; lra). reflexivity.
Qed.
Fixpoint eqlQ (l m : list Q) : bool :=
  match l, m with [], [] => true | a :: l, b :: m => Qeq_bool a b && eqlQ l m | _, _ => false end.
Lemma eqlQ_eval l : forall m y, eqlQ l m = true -> evalQ l y = evalQ m y.
Proof.
  induction l as [|a l IH]; intros [|b m] y H; simpl in *; try discriminate; auto.
  apply andb_prop in H. destruct H as [A B]. apply Qeq_bool_eq, Qeq_eqR in A. rewrite A, (IH m y B). reflexivity.
Qed.
Lemma leg_table : forallb (fun l => eqlQ (map (cQ l) (seq 0 (l + 1))) (fst (legQ l))) (seq 0 12) = true.
Proof. vm_compute. reflexivity. Qed.

Lemma eval_seq (c : nat -> Q) y n : forall s,
  evalQ (map c (seq s n)) y = sumR n (fun i => Q2R (c (s + i)%nat) * y ^ i).
Proof.
  induction n as [|n IH]; intro s; [reflexivity|].
  rewrite seq_S, map_app. cbn [map].
  assert (A : forall l, evalQ (l ++ [c (s + n)%nat]) y = evalQ l y + Q2R (c (s + n)%nat) * y ^ List.length l).
  { induction l as [|a l IHl]; simpl; [ring|]. rewrite IHl. ring. }
  rewrite A, IH, map_length, seq_length. reflexivity.
Qed.
Lemma legendre_coeffs l y : (l < 12)%nat -> legendre l y = sumR (l + 1) (fun m => cR l m * y ^ m).
Proof.
  intro H. unfold legendre. rewrite legQ_ok. cbn [fst].
  pose proof leg_table as T. rewrite forallb_forall in T.
  specialize (T l). rewrite in_seq in T. specialize (T ltac:(lia)).
  rewrite <- (eqlQ_eval _ _ y T), (eval_seq (cQ l) y (l + 1) 0).
  apply sumR_ext. intros i _. rewrite cQ_ok. reflexivity.
Qed.

(** ** Assembly *)
Lemma sum_res_ok n f g : (forall i, (i < n)%nat -> f i = Ok (g i)) -> sum_res n f = Ok (sumR n g).
Proof.
  induction n as [|n IH]; intro H; [reflexivity|]. cbn [sum_res]. rewrite IH by (intros; apply H; lia).
  cbn [bind]. rewrite H by lia. reflexivity.
Qed.
Lemma sum_res_err n f e i : (i < n)%nat -> f i = Err e ->
  (forall j, (j < i)%nat -> exists v, f j = Ok v) -> sum_res n f = Err e.
Proof.
  induction n as [|n IH]; intros H E A; [lia|]. cbn [sum_res].
  destruct (Nat.eq_dec i n) as [->|N].
  - assert (S : exists s, sum_res n f = Ok s).
    { clear IH H E. induction n as [|n IHn]; [eexists; reflexivity|]. cbn [sum_res].
      destruct IHn as [s ->]; [intros; apply A; lia|]. destruct (A n ltac:(lia)) as [v ->].
      eexists; reflexivity. }
    destruct S as [s ->]. cbn [bind]. rewrite E. reflexivity.
  - rewrite IH by (auto; lia). reflexivity.
Qed.

Section F.
  Variable G : R -> R.
  Definition f_sum (theta : R) (ell : nat) (b : R) : R :=
    sumR (ell + 1) (fun m => cR ell m * sumR (m + 1) (fun j =>
      binom (INR m) j * gjR j * sin theta ^ j * cos theta ^ (m - j) * I_x G (INR j + b) (m - j))).
  Lemma f_general_ok theta ell b : (ell < 12)%nat -> f_ell_general G theta ell b = Ok (f_sum theta ell b).
  Proof.
    intro H. unfold f_ell_general, f_sum.
    rewrite (sum_res_ok _ _ (fun m => binom (INR ell) m * binom (1 / 2 * (INR ell + INR m - 1)) ell *
       sumR (m + 1) (fun j =>
      binom (INR m) j * gjR j * sin theta ^ j * cos theta ^ (m - j) * I_x G (INR j + b) (m - j)))).
    - cbn [bind]. f_equal. rewrite <- sumR_scal. apply sumR_ext. intros m _. unfold cR. ring.
    - intros m Hm. rewrite (sum_res_ok _ _ (fun j =>
        binom (INR m) j * gjR j * sin theta ^ j * cos theta ^ (m - j) * I_x G (INR j + b) (m - j))).
      + reflexivity.
      + intros j Hj. rewrite gj_at by lia. reflexivity.
  Qed.
  Lemma f_general_err theta ell b : (12 <= ell)%nat -> f_ell_general G theta ell b = Err "IndexError".
  Proof.
    intro H. unfold f_ell_general. rewrite (sum_res_err _ _ "IndexError" 12).
    - reflexivity.
    - lia.
    - rewrite (sum_res_err _ _ "IndexError" 12); [reflexivity|lia|rewrite gj_out by lia; reflexivity|].
      intros j Hj. rewrite gj_at by lia. cbn [bind]. eexists; reflexivity.
    - intros j Hj. erewrite sum_res_ok.
      + cbn [bind]. eexists; reflexivity.
      + intros i Hi. cbn beta. rewrite gj_at by lia. cbn [bind]. reflexivity.
  Qed.

  Hypothesis HG : gamma_function G.

  Lemma inner_is theta l x : (l < 12)%nat ->
    is_RInt (fun phi => legendre l (sin theta * sqrt (1 - x ^ 2) * cos phi + cos theta * x) * cos (2 * phi))
      0 (2 * PI)
      (sumR (l + 1) (fun m => cR l m * sumR (m + 1) (fun j =>
         binom (INR m) j * gjR j * (sin theta * sqrt (1 - x ^ 2)) ^ j * (cos theta * x) ^ (m - j)))).
  Proof.
    intro H.
    apply (is_RInt_ext (V := R_NormedModule) (fun phi => sumR (l + 1) (fun m => cR l m * sumR (m + 1) (fun j =>
         (binom (INR m) j * (sin theta * sqrt (1 - x ^ 2)) ^ j * (cos theta * x) ^ (m - j)) * (cos phi ^ j * cos (2 * phi)))))).
    - intros phi _. rewrite legendre_coeffs by exact H. rewrite sumR_mult_r.
      apply sumR_ext. intros m Hm.
      rewrite binom_thm, Rmult_assoc, sumR_mult_r. f_equal. apply sumR_ext. intros j Hj.
      rewrite (Rpow_mult_distr (sin theta * sqrt (1 - x ^ 2)) (cos phi)). ring.
    - apply is_RInt_sumR. intros m Hm.
      apply (is_RInt_scal (V := R_NormedModule)). apply is_RInt_sumR. intros j Hj.
      evar_last.
      + apply (is_RInt_scal (V := R_NormedModule)). apply gj_is. lia.
      + unfold scal; simpl; unfold mult; simpl. ring.
  Qed.

  Lemma sqrt_pow2 u i : 0 <= u -> sqrt u ^ (2 * i) = u ^ i.
  Proof. intro H. rewrite pow_mult. f_equal. simpl. rewrite Rmult_1_r. now apply sqrt_sqrt. Qed.

  Lemma term_is p j b : (j < 12)%nat ->
    is_RInt (fun x => gjR j * ((1 - x ^ 2) ^ p / (1 - x ^ 2) * (sqrt (1 - x ^ 2) ^ j * x ^ b))) (-1) 1
      (gjR j * I_x G (INR j + (2 * INR p - 2)) b).
  Proof.
    intro H.
    assert (D : gjR j = 0 \/ exists i, j = (2 * (i + 1))%nat).
    { do 12 (destruct j as [|j]; [first [left; reflexivity |
         right; first [exists 0%nat; reflexivity|exists 1%nat; reflexivity|exists 2%nat; reflexivity|
                       exists 3%nat; reflexivity|exists 4%nat; reflexivity]]|]). lia. }
    destruct D as [D|[i D]].
    - rewrite D, Rmult_0_l.
      apply (is_RInt_ext (V := R_NormedModule) (fun _ => 0)).
      + intros x _. change (@eq R 0 (0 * ((1 - x ^ 2) ^ p / (1 - x ^ 2) * (sqrt (1 - x ^ 2) ^ j * x ^ b)))). ring.
      + evar_last; [apply (is_RInt_const (V := R_NormedModule))|]. unfold scal; simpl; unfold mult; simpl. ring.
    - apply (is_RInt_scal (V := R_NormedModule)).
      replace (INR j + (2 * INR p - 2)) with (2 * INR (p + i))
        by (rewrite D, mult_INR, !plus_INR; simpl; ring).
      rewrite (Ix_J G HG).
      apply (is_RInt_ext (V := R_NormedModule) (fun x => (1 - x ^ 2) ^ (p + i) * x ^ b)).
      + intros x Hx. rewrite Rmin_left, Rmax_right in Hx by lra.
        change (@eq R ((1 - x ^ 2) ^ (p + i) * x ^ b)
          ((1 - x ^ 2) ^ p / (1 - x ^ 2) * (sqrt (1 - x ^ 2) ^ j * x ^ b))).
        assert (P : 0 < 1 - x ^ 2) by nra.
        rewrite D, sqrt_pow2 by lra. rewrite !pow_add, pow_1. field. lra.
      + apply (RInt_correct (V := R_CompleteNormedModule)), J_ex.
  Qed.

  Lemma f_sum_integral theta l p : (l < 12)%nat ->
    f_sum theta l (2 * INR p - 2) = angular_integral theta l p.
  Proof.
    intro H. symmetry. apply (is_RInt_unique (V := R_CompleteNormedModule)).
    apply (is_RInt_ext (V := R_NormedModule) (fun x => sumR (l + 1) (fun m => cR l m * sumR (m + 1) (fun j =>
         (binom (INR m) j * sin theta ^ j * cos theta ^ (m - j)) *
         (gjR j * ((1 - x ^ 2) ^ p / (1 - x ^ 2) * (sqrt (1 - x ^ 2) ^ j * x ^ (m - j)))))))).
    - intros x _. rewrite (is_RInt_unique _ _ _ _ (inner_is theta l x H)).
      rewrite Rmult_comm, sumR_mult_r. apply sumR_ext. intros m Hm. rewrite Rmult_assoc, sumR_mult_r.
      f_equal. apply sumR_ext. intros j Hj. rewrite !Rpow_mult_distr. ring.
    - unfold f_sum. apply is_RInt_sumR. intros m Hm. apply (is_RInt_scal (V := R_NormedModule)).
      apply is_RInt_sumR. intros j Hj. evar_last.
      + apply (is_RInt_scal (V := R_NormedModule)). apply term_is. lia.
      + unfold scal; simpl; unfold mult; simpl. ring.
  Qed.
End F.
