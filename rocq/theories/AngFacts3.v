(** The hard-coded coefficients against the general formula. *)
From Coq Require Import ZArith QArith Qreals Machin.
From Coquelicot Require Import Coquelicot.
From Verif Require Import Base Quad Interp Spec QuadFacts IaModel IaSpec AngFacts AngFacts2.
Open Scope R_scope.

Lemma PI_bounds : 314159265 / 100000000 < PI < 314159266 / 100000000.
Proof.
  pose proof (PI_2_3_7_ineq 4) as H.
  cbv [sum_f_R0 Nat.mul Nat.add tg_alt PI_2_3_7_tg Ratan_seq pow INR] in H. lra.
Qed.

Definition gQ (m : nat) : Q := nth m [0; 0; 1 # 2; 0; 1 # 2; 0; 15 # 32; 0; 7 # 16; 0; 105 # 256; 0]%Q 0%Q.
Lemma gQ_ok m : (m < 12)%nat -> gjR m = PI * Q2R (gQ m).
Proof.
  intro H. do 12 (destruct m as [|m]; [unfold gjR, gQ, gj; cbn [nth]; unfold Q2R; simpl; lra|]). lia.
Qed.

Fixpoint hQ (p : nat) : Q := match p with O => 2%Q | S k => Qmult (Qdiv (Qn (2 * k + 2)) (Qn (2 * k + 3))) (hQ k) end.
Fixpoint oQ (p : nat) : Q := match p with O => (1 # 2)%Q | S k => Qmult (Qdiv (Qn (2 * k + 3)) (Qn (2 * k + 4))) (oQ k) end.
Lemma Qn_nz n : (0 < n)%nat -> ~ (Qn n == 0)%Q.
Proof. intros H E. apply Qeq_eqR in E. rewrite Qn_R, Q0_R in E. apply lt_INR in H. simpl in H. lra. Qed.

Section T.
  Variable G : R -> R.
  Hypothesis HG : gamma_function G.

  Lemma hQ_ok p : I_x G (2 * INR p) 0 = Q2R (hQ p).
  Proof.
    induction p as [|p IH].
    - replace (2 * INR 0) with 0 by (simpl; ring). rewrite (Ix_00 G HG). unfold Q2R; simpl; lra.
    - replace (2 * INR (S p)) with (2 * INR p + 2) by (rewrite S_INR; ring).
      rewrite (Ix_a G HG (2 * INR p) 0 (2 * p + 1)) by (rewrite plus_INR, mult_INR; simpl; ring).
      rewrite IH. cbn [hQ]. rewrite Q2R_mult, Q2R_div by (apply Qn_nz; lia).
      rewrite !Qn_R, !plus_INR, mult_INR. simpl INR. pose proof (pos_INR p). field. lra.
  Qed.
  Lemma oQ_ok p : I_x G (2 * INR p + 1) 0 = PI * Q2R (oQ p).
  Proof.
    induction p as [|p IH].
    - replace (2 * INR 0 + 1) with 1 by (simpl; ring). rewrite (Ix_10 G HG). unfold Q2R; simpl; lra.
    - replace (2 * INR (S p) + 1) with (2 * INR p + 1 + 2) by (rewrite S_INR; ring).
      rewrite (Ix_a G HG (2 * INR p + 1) 0 (2 * p + 2)) by (rewrite plus_INR, mult_INR; simpl; ring).
      rewrite IH. cbn [oQ]. rewrite Q2R_mult, Q2R_div by (apply Qn_nz; lia).
      rewrite !Qn_R, !plus_INR, mult_INR. simpl INR. pose proof (pos_INR p). field. lra.
  Qed.

  Lemma f_sum_right_angle l b :
    f_sum G (PI / 2) l b = sumR (l + 1) (fun m => cR l m * (gjR m * I_x G (INR m + b) 0)).
  Proof.
    unfold f_sum. apply sumR_ext. intros m _. f_equal. rewrite sin_PI2, cos_PI2.
    replace (m + 1)%nat with (S m) by lia. cbn [sumR].
    rewrite (sumR_ext m _ (fun _ => 0)), sumR_zero.
    - rewrite Nat.sub_diag, pow1. rewrite binom_C by lia. unfold Binomial.C. rewrite Nat.sub_diag.
      simpl (0 ^ 0). simpl (fact 0). simpl (INR 1). field. apply INR_fact_neq_0.
    - intros j Hj. replace (m - j)%nat with (S (m - j - 1)) by lia. rewrite pow_i by lia. ring.
  Qed.

  Fixpoint sumQ (n : nat) (f : nat -> Q) : Q := match n with O => 0%Q | S k => Qplus (sumQ k f) (f k) end.
  Lemma sumQ_ok n f : Q2R (sumQ n f) = sumR n (fun i => Q2R (f i)).
  Proof. induction n; [apply Q0_R|]. simpl. rewrite Q2R_plus, IHn. reflexivity. Qed.

  Definition vm2 (l : nat) : Q := sumQ (l + 1) (fun m => Qmult (cQ l m) (Qmult (gQ m) (hQ (Nat.div2 m - 1)))).
  Definition v0 (l : nat) : Q := sumQ (l + 1) (fun m => Qmult (cQ l m) (Qmult (gQ m) (hQ (Nat.div2 m)))).
  Definition v1 (l : nat) : Q := sumQ (l + 1) (fun m => Qmult (cQ l m) (Qmult (gQ m) (oQ (Nat.div2 m)))).

  Lemma g_cases m : (m < 12)%nat -> gQ m = 0%Q \/ (exists i, m = (2 * (i + 1))%nat).
  Proof.
    intro H. do 12 (destruct m as [|m]; [first [left; reflexivity |
         right; first [exists 0%nat; reflexivity|exists 1%nat; reflexivity|exists 2%nat; reflexivity|
                       exists 3%nat; reflexivity|exists 4%nat; reflexivity]]|]). lia.
  Qed.
  Lemma f_m2 l : (l < 12)%nat -> f_sum G (PI / 2) l (-2) = PI * Q2R (vm2 l).
  Proof.
    intro H. rewrite f_sum_right_angle. unfold vm2. rewrite sumQ_ok, <- sumR_scal. apply sumR_ext.
    intros m Hm. rewrite !Q2R_mult, cQ_ok, gQ_ok by lia.
    destruct (g_cases m ltac:(lia)) as [->|[i E]].
    - rewrite Q0_R. ring.
    - replace (Nat.div2 m - 1)%nat with i by (rewrite E, Nat.div2_double; lia).
      replace (INR m + -2) with (2 * INR i) by (rewrite E, mult_INR, plus_INR; simpl; ring).
      rewrite hQ_ok. ring.
  Qed.
  Lemma f_0 l : (l < 12)%nat -> f_sum G (PI / 2) l 0 = PI * Q2R (v0 l).
  Proof.
    intro H. rewrite f_sum_right_angle. unfold v0. rewrite sumQ_ok, <- sumR_scal. apply sumR_ext.
    intros m Hm. rewrite !Q2R_mult, cQ_ok, gQ_ok by lia.
    destruct (g_cases m ltac:(lia)) as [->|[i E]].
    - rewrite Q0_R. ring.
    - replace (Nat.div2 m) with (i + 1)%nat by (rewrite E, Nat.div2_double; lia).
      replace (INR m + 0) with (2 * INR (i + 1)) by (rewrite E, mult_INR; simpl; ring).
      rewrite hQ_ok. ring.
  Qed.
  Lemma f_1 l : (l < 12)%nat -> f_sum G (PI / 2) l 1 = PI * PI * Q2R (v1 l).
  Proof.
    intro H. rewrite f_sum_right_angle. unfold v1. rewrite sumQ_ok, <- sumR_scal. apply sumR_ext.
    intros m Hm. rewrite !Q2R_mult, cQ_ok, gQ_ok by lia.
    destruct (g_cases m ltac:(lia)) as [->|[i E]].
    - rewrite Q0_R. ring.
    - replace (Nat.div2 m) with (i + 1)%nat by (rewrite E, Nat.div2_double; lia).
      replace (INR m + 1) with (2 * INR (i + 1) + 1) by (rewrite E, mult_INR; simpl; ring).
      rewrite oQ_ok. ring.
  Qed.

  Ltac value f l := let v := eval vm_compute in (Qred (f l)) in
    let H := fresh in assert (H : Q2R (f l) = Q2R v) by (apply Qeq_eqR; vm_compute; reflexivity);
    rewrite H; clear H; unfold Q2R; simpl Qnum; simpl Qden.

  Lemma table_m2 l : (l < 12)%nat ->
    Rabs (nth l pre_calc_m2 0 - f_sum G (PI / 2) l (-2)) <= 3 / 1000000.
  Proof.
    intro H. rewrite f_m2 by exact H. pose proof PI_bounds.
    do 12 (destruct l as [|l]; [
      match goal with |- context [vm2 ?n] => value vm2 n end;
      unfold pre_calc_m2; cbn [nth]; apply Rabs_le; lra|]). lia.
  Qed.
  Lemma table_0_wrong i : (1 <= i <= 5)%nat ->
    4 / 100 < Rabs (nth (2 * i) pre_calc_0 0 - f_sum G (PI / 2) (2 * i) 0).
  Proof.
    intro H. rewrite f_0 by lia. pose proof PI_bounds.
    do 6 (destruct i as [|i]; [try lia;
      cbn [Nat.mul Nat.add];
      match goal with |- context [v0 ?n] => value v0 n end;
      unfold pre_calc_0; cbn [nth]; unfold Rabs; destruct (Rcase_abs _); lra|]). lia.
  Qed.
  Lemma PI2_bounds : 98696043 / 10000000 < PI * PI < 98696045 / 10000000.
  Proof. pose proof PI_bounds. nra. Qed.
  Lemma table_0_slope_1 l : (l < 12)%nat ->
    Rabs (nth l pre_calc_0 0 - f_sum G (PI / 2) l 1) <= 2 / 1000000.
  Proof.
    intro H. rewrite f_1 by exact H. pose proof PI2_bounds.
    do 12 (destruct l as [|l]; [
      match goal with |- context [v1 ?n] => value v1 n end;
      unfold pre_calc_0; cbn [nth]; apply Rabs_le; lra|]). lia.
  Qed.
End T.

(** ** A function with the properties used of the gamma function *)
Definition g1 (y : R) : R := if Req_EM_T y (3 / 2) then sqrt PI / 2 else 1.
Fixpoint rising (y : R) (n : nat) : R := match n with O => 1 | S k => rising y k * (y + INR k) end.
Definition gam (x : R) : R :=
  if Rlt_dec x 1 then g1 (x + 1) / x
  else let n := Z.to_nat (Int_part x - 1) in g1 (x - INR n) * rising (x - INR n) n.
Lemma Int_part_spec x z : IZR z <= x < IZR z + 1 -> Int_part x = z.
Proof.
  intros [A B]. unfold Int_part. rewrite <- (tech_up x (z + 1)); [lia| |]; rewrite plus_IZR; lra.
Qed.
Lemma gam_ge x n : INR n + 1 <= x < INR n + 2 -> gam x = g1 (x - INR n) * rising (x - INR n) n.
Proof.
  intro H. unfold gam. pose proof (pos_INR n). destruct (Rlt_dec x 1); [lra|].
  rewrite (Int_part_spec x (Z.of_nat n + 1)).
  - replace (Z.of_nat n + 1 - 1)%Z with (Z.of_nat n) by lia. rewrite Nat2Z.id. reflexivity.
  - rewrite plus_IZR, <- INR_IZR_INZ. lra.
Qed.
Lemma gam_gamma : gamma_function gam.
Proof.
  assert (S1 : forall x, 0 < x -> gam (x + 1) = x * gam x).
  { intros x H. destruct (Rlt_dec x 1) as [L|L].
    - rewrite (gam_ge (x + 1) 0) by (simpl; lra). unfold gam. destruct (Rlt_dec x 1); [|lra].
      simpl. rewrite Rminus_0_r. field. lra.
    - destruct (nfloor_ex x ltac:(lra)) as [n [A B]].
      destruct n as [|n]; [simpl in B; lra|]. rewrite S_INR in *.
      rewrite (gam_ge x n) by lra. rewrite (gam_ge (x + 1) (S n)) by (rewrite S_INR; lra).
      rewrite S_INR. replace (x + 1 - (INR n + 1)) with (x - INR n) by ring. cbn [rising]. ring. }
  split; [|split; [|exact S1]].
  - rewrite (gam_ge 1 0) by (simpl; lra). simpl. unfold g1. destruct (Req_EM_T _ _); lra.
  - unfold gam. destruct (Rlt_dec (1 / 2) 1); [|lra]. unfold g1. destruct (Req_EM_T _ _); lra.
Qed.
