(** Proofs about pyfftlog: inverse, orthogonality, modes, kernel, low-ringing kr. *)
From Coq Require Import ZArith Lia.
From Verif Require Import Base QuadFacts FftModel FftSpec FftFacts FftFacts2 FftFacts3 FftFacts4.
Open Scope R_scope.

Lemma np_round_half x : Rabs (x - IZR (np_round x)) <= / 2.
Proof.
  unfold np_round. destruct (base_Int_part x) as [A B]. set (f := Int_part x) in *.
  destruct (Rlt_dec (x - IZR f) (/ 2)) as [L|L]; [rewrite Rabs_right; lra|].
  destruct (Rlt_dec (/ 2) (x - IZR f)) as [U|U].
  - rewrite plus_IZR, Rabs_left; lra.
  - destruct (Z.even f); [rewrite Rabs_right; lra|]. rewrite plus_IZR, Rabs_left1; lra.
Qed.
Lemma cos_zpi z : cos (IZR z * PI) = 1 \/ cos (IZR z * PI) = -1.
Proof.
  assert (S0 : sin (IZR z * PI) = 0) by (apply sin_eq_0_1; now exists z).
  pose proof (sin2_cos2 (IZR z * PI)) as E. unfold Rsqr in E. rewrite S0 in E.
  assert (F : (cos (IZR z * PI) - 1) * (cos (IZR z * PI) + 1) = 0) by lra. apply Rmult_integral in F as [F|F]; [left|right]; lra.
Qed.
Lemma sin_zpi z : sin (IZR z * PI) = 0. Proof. apply sin_eq_0_1. now exists z. Qed.

Section Gamma.
  Variables lgr lgi : R -> R -> R.
  Notation kern := (kernel_of lgr lgi).

  Lemma arg_phase mu q kr y : 0 < kr -> xsave_arg lgi mu q kr y = bessel_phase lgi mu q y - 2 * y * ln kr.
  Proof. intros K. unfold xsave_arg, bessel_phase. unfold Rdiv at 1. rewrite ln_mult, ln_Rinv by (try apply Rinv_0_lt_compat; lra). ring. Qed.

  (** krgood. *)
  Theorem krgood_spec mu q dlnr kr : 0 < kr -> dlnr <> 0 -> let k := krgood lgi mu q dlnr kr in
    0 < k /\ Rabs (ln k - ln kr) <= Rabs dlnr / 2 /\ low_ringing lgi mu q dlnr k.
  Proof.
    intros K D k. unfold k, krgood. destruct (Req_EM_T dlnr 0); [contradiction|]. clear k.
    set (y := PI / (2 * dlnr)). set (g := lgi ((mu + 1 + q) / 2) y + lgi ((mu + 1 - q) / 2) y). set (arg := ln (2 / kr) / dlnr + g / PI).
    pose proof PI_RGT_0 as P. split; [apply Rmult_lt_0_compat; [exact K|apply exp_pos]|].
    assert (L : ln (kr * exp ((arg - IZR (np_round arg)) * dlnr)) = ln kr + (arg - IZR (np_round arg)) * dlnr) by (rewrite ln_mult by (exact K || apply exp_pos); now rewrite ln_exp).
    split.
    - rewrite L. replace (ln kr + (arg - IZR (np_round arg)) * dlnr - ln kr) with ((arg - IZR (np_round arg)) * dlnr) by ring. rewrite Rabs_mult.
      pose proof (np_round_half arg). pose proof (Rabs_pos dlnr). nra.
    - exists (np_round arg). rewrite L. unfold bessel_phase. fold y. rewrite Rplus_assoc. fold g.
      assert (E : ln (2 / kr) = ln 2 - ln kr) by (unfold Rdiv; rewrite ln_mult, ln_Rinv by (try apply Rinv_0_lt_compat; lra); ring).
      replace (2 * ln 2 * y + g - PI / dlnr * (ln kr + (arg - IZR (np_round arg)) * dlnr)) with (PI * (ln (2 / kr) / dlnr + g / PI) - PI * arg + IZR (np_round arg) * PI).
      + unfold arg. ring.
      + rewrite E. unfold y. field. split; lra.
  Qed.

  (** Linear, never failing. *)
  Lemma fhtq_any n mu dlnr q kr xs a dir out : (1 <= n)%nat -> work lgr lgi n mu dlnr q kr xs -> (dir = 1 \/ dir = -1)%Z -> fhtq n a xs dir = Ok out ->
    forall j, (j < n)%nat -> out j = sumR n (fun i => a i * kern n mu dlnr q kr dir (INR (n - 1 - j) - INR i)).
  Proof. intros Hn W Hd E. destruct (fhtq_closed lgr lgi n mu dlnr q kr xs a dir Hn W Hd) as (o & E' & H). rewrite E in E'. injection E' as ->. exact H. Qed.

  Definition pre (n : nat) (q dlnr : R) (dir : Z) (i : nat) : R := exp (- IZR dir * q * (INR i + 1 - (INR n + 1) / 2) * dlnr).
  Definition post (n : nat) (q dlnr kr : R) (dir : Z) (i : nat) : R := exp (- IZR dir * q * ((INR i + 1 - (INR n + 1) / 2) * dlnr + ln kr)).
  Theorem fht_closed n mu dlnr q kr xs a dir : (1 <= n)%nat -> work lgr lgi n mu dlnr q kr xs -> (dir = 1 \/ dir = -1)%Z ->
    exists out, fht n a xs dir = Ok out /\ forall j, (j < n)%nat ->
      out j = post n q dlnr kr dir j * sumR n (fun i => a i * pre n q dlnr dir i * kern n mu dlnr q kr dir (INR (n - 1 - j) - INR i)).
  Proof.
    intros Hn W Hd. pose proof W as (W0 & W1 & W2 & _). unfold fht. rewrite W0, W1, W2. cbn [bind].
    match goal with |- context [fhtq n ?b xs dir] => destruct (fhtq_closed lgr lgi n mu dlnr q kr xs b dir Hn W Hd) as (o & E & H) end.
    rewrite E. cbn [bind]. eexists. split; [reflexivity|]. intros j Hj. destruct (Req_EM_T q 0) as [Q|Q]; rewrite H by exact Hj.
    - unfold post, pre. subst q. replace (- IZR dir * 0 * _) with 0 by ring. rewrite exp_0, Rmult_1_l. apply sumR_ext. intros i _.
      replace (- IZR dir * 0 * (INR i + 1 - (INR n + 1) / 2) * dlnr) with 0 by ring. rewrite exp_0. ring.
    - rewrite Rmult_comm. reflexivity.
  Qed.
  Lemma fht_any n mu dlnr q kr xs a dir out : (1 <= n)%nat -> work lgr lgi n mu dlnr q kr xs -> (dir = 1 \/ dir = -1)%Z -> fht n a xs dir = Ok out ->
    forall j, (j < n)%nat -> out j = post n q dlnr kr dir j * sumR n (fun i => a i * pre n q dlnr dir i * kern n mu dlnr q kr dir (INR (n - 1 - j) - INR i)).
  Proof. intros Hn W Hd E. destruct (fht_closed n mu dlnr q kr xs a dir Hn W Hd) as (o & E' & H). rewrite E in E'. injection E' as ->. exact H. Qed.

  (** The inverse. *)
  Definition invertible (n : nat) (mu dlnr q kr : R) : Prop :=
    (q <> 0 -> first_coefficient lgr lgi mu q <> Ok 0) /\ (Nat.even n = true -> cos (bessel_phase lgi mu q (PI / (2 * dlnr)) - PI / dlnr * ln kr) <> 0).
  Lemma freq_half n dlnr : (1 <= n)%nat -> Nat.even n = true -> dlnr <> 0 -> freq n dlnr (n / 2) = PI / (2 * dlnr).
  Proof. intros Hn E D. destruct (half_even' n Hn E) as (h & A & B & _). unfold freq. rewrite B, A, mult_INR. change (INR 2) with 2. field. split; [exact D|apply not_0_INR; lia]. Qed.
  Lemma kern_inverse n mu dlnr q kr xs dir dir' i j : (1 <= n)%nat -> 0 < kr -> dlnr <> 0 -> work lgr lgi n mu dlnr q kr xs -> invertible n mu dlnr q kr ->
    (dir = 1 /\ dir' = -1 \/ dir = -1 /\ dir' = 1)%Z -> (i < n)%nat -> (j < n)%nat ->
    sumR n (fun l => kern n mu dlnr q kr dir (INR (n - 1 - l) - INR i) * kern n mu dlnr q kr dir' (INR (n - 1 - j) - INR l)) = if Nat.eqb i j then 1 else 0.
  Proof.
    intros Hn K D W [I1 I2] Hd Hi Hj. assert (N0 : INR n <> 0) by (apply not_0_INR; lia).
    rewrite (sumR_ext n _ (fun l => kern n mu dlnr q kr dir (INR (n - 1 - i) - INR l) * kern n mu dlnr q kr dir' (INR (n - 1 - j) - INR l))).
    2:{ intros l Hl. f_equal. f_equal. rewrite !minus_INR by lia. ring. }
    unfold kernel_of. rewrite kap_corr by exact Hn.
    rewrite (sumR_ext (S (n / 2)) _ (fun m => hw n m * cos (2 * PI * INR m * (INR (n - 1 - i) - INR (n - 1 - j)) / INR n))).
    - rewrite dirichlet by lia. destruct (Nat.eqb_spec (n - 1 - i) (n - 1 - j)); destruct (Nat.eqb_spec i j); try lia; unfold Rdiv; [now rewrite Rinv_r|ring].
    - intros m Hm. replace (2 * PI * INR m * (INR (n - 1 - i) - INR (n - 1 - j)) / INR n + ha n (fun m => xsave_arg lgi mu q kr (freq n dlnr m)) m - ha n (fun m => xsave_arg lgi mu q kr (freq n dlnr m)) m)
        with (2 * PI * INR m * (INR (n - 1 - i) - INR (n - 1 - j)) / INR n) by ring.
      f_equal. rewrite <- (Rmult_1_r (hw n m)) at 2. f_equal. unfold hg.
      assert (DG : forall x, x <> 0 -> dirg dir x * dirg dir' x = 1).
      { intros x X. unfold dirg. destruct Hd as [[-> ->]|[-> ->]]; cbn; field; exact X. }
      destruct (Nat.eqb_spec m 0) as [M0|M0].
      + unfold zero_mode. destruct (Req_EM_T q 0) as [Q|Q]; [ring|]. destruct W as (_ & _ & _ & _ & WB). destruct (WB Q) as (_ & (u0 & FC & _) & _). specialize (I1 Q). rewrite FC in *.
        assert (U : u0 <> 0) by (intros ->; now apply I1). destruct Hd as [[-> ->]|[-> ->]]; cbn; destruct (Req_EM_T u0 0); try contradiction; field; exact U.
      + destruct (Nat.eqb_spec (2 * m) n) as [M1|M1].
        * apply DG. assert (E : Nat.even n = true) by (apply Nat.even_spec; exists m; lia).
          apply Rmult_integral_contrapositive_currified; [|apply Rgt_not_eq, exp_pos]. rewrite freq_half by assumption. rewrite arg_phase by exact K.
          replace (2 * (PI / (2 * dlnr)) * ln kr) with (PI / dlnr * ln kr) by (field; exact D). now apply I2.
        * apply DG. apply Rgt_not_eq, exp_pos.
  Qed.
  Theorem fhtq_inverse n mu dlnr q kr xs dir dir' a out back : (1 <= n)%nat -> 0 < kr -> dlnr <> 0 -> work lgr lgi n mu dlnr q kr xs -> invertible n mu dlnr q kr ->
    (dir = 1 /\ dir' = -1 \/ dir = -1 /\ dir' = 1)%Z -> fhtq n a xs dir = Ok out -> fhtq n out xs dir' = Ok back -> forall j, (j < n)%nat -> back j = a j.
  Proof.
    intros Hn K D W I Hd E1 E2 j Hj. assert (D1 : (dir = 1 \/ dir = -1)%Z) by lia. assert (D2 : (dir' = 1 \/ dir' = -1)%Z) by lia.
    rewrite (fhtq_any _ _ _ _ _ _ _ _ _ Hn W D2 E2 j Hj).
    rewrite (sumR_ext n _ (fun l => sumR n (fun i => a i * (kern n mu dlnr q kr dir (INR (n - 1 - l) - INR i) * kern n mu dlnr q kr dir' (INR (n - 1 - j) - INR l))))).
    - rewrite sumR_swap. rewrite (sumR_one n _ j Hj).
      + rewrite sumR_scal, (kern_inverse n mu dlnr q kr xs) by assumption. rewrite Nat.eqb_refl. ring.
      + intros i Hi N. rewrite sumR_scal, (kern_inverse n mu dlnr q kr xs) by assumption. destruct (Nat.eqb_spec i j); [contradiction|ring].
    - intros l Hl. rewrite (fhtq_any _ _ _ _ _ _ _ _ _ Hn W D1 E1 l Hl). rewrite <- sumR_scal_r. apply sumR_ext. intros i _. ring.
  Qed.
  Theorem fht_inverse n mu dlnr q kr xs dir dir' a out back : (1 <= n)%nat -> 0 < kr -> dlnr <> 0 -> work lgr lgi n mu dlnr q kr xs -> invertible n mu dlnr q kr ->
    (dir = 1 /\ dir' = -1 \/ dir = -1 /\ dir' = 1)%Z -> fht n a xs dir = Ok out -> fht n out xs dir' = Ok back -> forall j, (j < n)%nat -> back j = a j.
  Proof.
    intros Hn K D W I Hd E1 E2 j Hj. assert (D1 : (dir = 1 \/ dir = -1)%Z) by lia. assert (D2 : (dir' = 1 \/ dir' = -1)%Z) by lia.
    assert (DN : IZR dir' = - IZR dir) by (destruct Hd as [[-> ->]|[-> ->]]; cbn; lra).
    rewrite (fht_any _ _ _ _ _ _ _ _ _ Hn W D2 E2 j Hj).
    rewrite (sumR_ext n _ (fun l => exp (- IZR dir * q * ln kr) * sumR n (fun i => a i * pre n q dlnr dir i * (kern n mu dlnr q kr dir (INR (n - 1 - l) - INR i) * kern n mu dlnr q kr dir' (INR (n - 1 - j) - INR l))))).
    - rewrite sumR_scal, sumR_swap. rewrite (sumR_one n _ j Hj).
      + rewrite sumR_scal, (kern_inverse n mu dlnr q kr xs) by assumption. rewrite Nat.eqb_refl. unfold pre, post. rewrite DN.
        transitivity (a j * (exp (- - IZR dir * q * ((INR j + 1 - (INR n + 1) / 2) * dlnr + ln kr)) * exp (- IZR dir * q * ln kr) * exp (- IZR dir * q * (INR j + 1 - (INR n + 1) / 2) * dlnr))); [ring|].
        rewrite <- !exp_plus. replace (_ + _ + _) with 0 by ring. rewrite exp_0. ring.
      + intros i Hi N. rewrite sumR_scal, (kern_inverse n mu dlnr q kr xs) by assumption. destruct (Nat.eqb_spec i j); [contradiction|ring].
    - intros l Hl. rewrite (fht_any _ _ _ _ _ _ _ _ _ Hn W D1 E1 l Hl).
      transitivity (post n q dlnr kr dir l * pre n q dlnr dir' l * (sumR n (fun i => a i * pre n q dlnr dir i * kern n mu dlnr q kr dir (INR (n - 1 - l) - INR i)) * kern n mu dlnr q kr dir' (INR (n - 1 - j) - INR l))); [ring|].
      f_equal.
      + unfold post, pre. rewrite DN, <- exp_plus. f_equal. ring.
      + rewrite <- sumR_scal_r. apply sumR_ext. intros i _. ring.
  Qed.

  (** Low-ringing kr gives invertibility. *)
  Lemma low_invertible n mu dlnr q kr : low_ringing lgi mu q dlnr kr -> (q <> 0 -> first_coefficient lgr lgi mu q <> Ok 0) -> invertible n mu dlnr q kr.
  Proof. intros [z E] H. split; [exact H|]. intros _. rewrite E. destruct (cos_zpi z) as [-> | ->]; lra. Qed.

  (** Orthogonality of the unbiased transform. *)
  Theorem fht_orthogonal n mu dlnr kr xs dir a out : (1 <= n)%nat -> 0 < kr -> dlnr <> 0 -> work lgr lgi n mu dlnr 0 kr xs -> (Nat.even n = true -> low_ringing lgi mu 0 dlnr kr) ->
    (dir = 1 \/ dir = -1)%Z -> fht n a xs dir = Ok out -> sumR n (fun j => out j * out j) = sumR n (fun j => a j * a j).
  Proof.
    intros Hn K D W LR Hd E. assert (N0 : INR n <> 0) by (apply not_0_INR; lia).
    assert (F : forall j, (j < n)%nat -> out j = sumR n (fun i => a i * kern n mu dlnr 0 kr dir (INR (n - 1 - i) - INR j))).
    { intros j Hj. rewrite (fht_any _ _ _ _ _ _ _ _ _ Hn W Hd E j Hj). unfold post, pre. replace (- IZR dir * 0 * ((INR j + 1 - (INR n + 1) / 2) * dlnr + ln kr)) with 0 by ring.
      rewrite exp_0, Rmult_1_l. apply sumR_ext. intros i Hi. replace (- IZR dir * 0 * (INR i + 1 - (INR n + 1) / 2) * dlnr) with 0 by ring. rewrite exp_0, Rmult_1_r. f_equal. f_equal.
      rewrite !minus_INR by lia. ring. }
    rewrite (sumR_ext n _ (fun j => sumR n (fun i => sumR n (fun i' => a i * a i' * (kern n mu dlnr 0 kr dir (INR (n - 1 - i) - INR j) * kern n mu dlnr 0 kr dir (INR (n - 1 - i') - INR j)))))).
    2:{ intros j Hj. rewrite F by exact Hj. rewrite <- sumR_scal_r. apply sumR_ext. intros i _. rewrite <- sumR_scal. apply sumR_ext. intros i' _. ring. }
    rewrite sumR_swap. apply sumR_ext. intros i Hi. rewrite sumR_swap.
    assert (G : forall i', (i' < n)%nat -> sumR n (fun j => kern n mu dlnr 0 kr dir (INR (n - 1 - i) - INR j) * kern n mu dlnr 0 kr dir (INR (n - 1 - i') - INR j)) = if Nat.eqb i i' then 1 else 0).
    { intros i' Hi'. unfold kernel_of. rewrite kap_corr by exact Hn.
      rewrite (sumR_ext (S (n / 2)) _ (fun m => hw n m * cos (2 * PI * INR m * (INR (n - 1 - i) - INR (n - 1 - i')) / INR n))).
      - rewrite dirichlet by lia. destruct (Nat.eqb_spec (n - 1 - i) (n - 1 - i')); destruct (Nat.eqb_spec i i'); try lia; unfold Rdiv; [now rewrite Rinv_r|ring].
      - intros m Hm. replace (2 * PI * INR m * (INR (n - 1 - i) - INR (n - 1 - i')) / INR n + ha n (fun m => xsave_arg lgi mu 0 kr (freq n dlnr m)) m - ha n (fun m => xsave_arg lgi mu 0 kr (freq n dlnr m)) m)
          with (2 * PI * INR m * (INR (n - 1 - i) - INR (n - 1 - i')) / INR n) by ring.
        f_equal. rewrite <- (Rmult_1_r (hw n m)) at 2. f_equal. unfold hg. destruct (Nat.eqb_spec m 0).
        + unfold zero_mode. destruct (Req_EM_T 0 0); [ring|contradiction].
        + destruct (Nat.eqb_spec (2 * m) n) as [M1|M1].
          * assert (Ev : Nat.even n = true) by (apply Nat.even_spec; exists m; lia). rewrite freq_half, amp_zero, arg_phase, Rmult_1_r by assumption.
            replace (2 * (PI / (2 * dlnr)) * ln kr) with (PI / dlnr * ln kr) by (field; exact D). destruct (LR Ev) as [z ->].
            unfold dirg. destruct Hd as [-> | ->]; cbn; destruct (cos_zpi z) as [-> | ->]; field.
          * rewrite amp_zero. unfold dirg. destruct Hd as [-> | ->]; cbn; field. }
    rewrite (sumR_one n _ i Hi).
    - rewrite sumR_scal, G, Nat.eqb_refl by exact Hi. ring.
    - intros i' Hi' N. rewrite sumR_scal, G by exact Hi'. destruct (Nat.eqb_spec i i'); [congruence|ring].
  Qed.
End Gamma.
