(** Proofs about the angular coefficients of ia.py. *)
From Coq Require Import ZArith QArith Qreals.
From Coquelicot Require Import Coquelicot.
From Verif Require Import Base Quad Interp Spec QuadFacts IaModel IaSpec.
Open Scope R_scope.

(** ** Integrals of (1 - x^2)^p x^b *)
Definition J (p b : nat) : R := RInt (fun x => (1 - x ^ 2) ^ p * x ^ b) (-1) 1.
Lemma J_cont p b x : continuous (fun x : R => (1 - x ^ 2) ^ p * x ^ b) x.
Proof.
  apply (ex_derive_continuous (fun x : R => (1 - x ^ 2) ^ p * x ^ b)).
  apply (ex_derive_mult (fun x : R => (1 - x ^ 2) ^ p) (fun x : R => x ^ b)).
  - apply (ex_derive_pow (fun x : R => 1 - x ^ 2)). auto_derive. exact I.
  - auto_derive. exact I.
Qed.
Lemma J_ex p b a c : ex_RInt (fun x : R => (1 - x ^ 2) ^ p * x ^ b) a c.
Proof. apply (ex_RInt_continuous (V := R_CompleteNormedModule)). intros z _. apply J_cont. Qed.

Lemma J_up p b : J (S p) b = J p b - J p (S (S b)).
Proof.
  unfold J. rewrite <- (RInt_minus (V := R_CompleteNormedModule)); [|apply J_ex|apply J_ex].
  apply RInt_ext. intros x _. change (@eq R ((1 - x ^ 2) ^ S p * x ^ b)
    ((1 - x ^ 2) ^ p * x ^ b - (1 - x ^ 2) ^ p * x ^ S (S b))). simpl. ring.
Qed.
Lemma J_parts p b : (INR b + 1) * J (S p) b = 2 * (INR p + 1) * J p (S (S b)).
Proof.
  assert (D : forall x, is_derive (fun x : R => (1 - x ^ 2) ^ S p * x ^ S b) x
     ((INR b + 1) * ((1 - x ^ 2) ^ S p * x ^ b) - 2 * (INR p + 1) * ((1 - x ^ 2) ^ p * x ^ S (S b)))).
  { intro x.
    assert (D1 : is_derive (fun x : R => 1 - x ^ 2) x (- 2 * x)) by (auto_derive; [exact I|ring]).
    assert (D2 : is_derive (fun x : R => x ^ S b) x ((INR b + 1) * x ^ b)).
    { auto_derive; [exact I|]. change (match b with 0%nat => 1 | S _ => INR b + 1 end) with (INR (S b)).
      rewrite S_INR. ring. }
    pose proof (is_derive_pow _ (S p) x _ D1) as D3.
    evar_last. { apply (is_derive_mult _ _ x _ _ D3 D2). intros; apply Rmult_comm. }
    unfold plus, mult; simpl. change (match p with 0%nat => 1 | S _ => INR p + 1 end) with (INR (S p)).
    rewrite S_INR. ring. }
  assert (E : RInt (fun x => (INR b + 1) * ((1 - x ^ 2) ^ S p * x ^ b)
                             - 2 * (INR p + 1) * ((1 - x ^ 2) ^ p * x ^ S (S b))) (-1) 1 = 0).
  { apply (is_RInt_unique (V := R_CompleteNormedModule)).
    evar_last.
    - apply (is_RInt_derive (V := R_CompleteNormedModule) (fun x : R => (1 - x ^ 2) ^ S p * x ^ S b)).
      + intros x _. apply D.
      + intros x _. apply (continuous_minus (V := R_NormedModule)).
        * apply (continuous_scal_r (K := R_AbsRing) (V := R_NormedModule)), J_cont.
        * apply (continuous_scal_r (K := R_AbsRing) (V := R_NormedModule)), J_cont.
    - unfold minus, plus, opp; simpl. ring. }
  rewrite (RInt_minus (V := R_CompleteNormedModule)) in E;
    [|apply (ex_RInt_scal (V := R_CompleteNormedModule)), J_ex|apply (ex_RInt_scal (V := R_CompleteNormedModule)), J_ex].
  rewrite !(RInt_scal (V := R_CompleteNormedModule)) in E by apply J_ex.
  change (scal (INR b + 1) (J (S p) b)) with ((INR b + 1) * J (S p) b) in E.
  unfold minus, plus, opp, scal in E; simpl in E. unfold mult in E; simpl in E.
  fold (J (S p) b) in E. unfold J in *. simpl in *. lra.
Qed.

Lemma J_b p b : J p (S (S b)) = (INR b + 1) / (2 * INR p + INR b + 3) * J p b.
Proof.
  pose proof (J_up p b) as U. pose proof (J_parts p b) as P. rewrite U in P.
  pose proof (pos_INR p). pose proof (pos_INR b).
  apply (Rmult_eq_reg_l (2 * INR p + INR b + 3)); [|lra].
  replace ((2 * INR p + INR b + 3) * ((INR b + 1) / (2 * INR p + INR b + 3) * J p b))
    with ((INR b + 1) * J p b) by (field; lra). lra.
Qed.
Lemma J_p p b : J (S p) b = 2 * (INR p + 1) / (2 * INR p + INR b + 3) * J p b.
Proof.
  rewrite J_up, J_b. pose proof (pos_INR p). pose proof (pos_INR b). field. lra.
Qed.
Lemma J_00 : J 0 0 = 2.
Proof.
  unfold J. rewrite (RInt_ext (V := R_CompleteNormedModule) _ (fun _ => 1)).
  - rewrite RInt_const. unfold scal; simpl; unfold mult; simpl. ring.
  - intros x _. change (@eq R ((1 - x ^ 2) ^ 0 * x ^ 0) 1). simpl. ring.
Qed.
Lemma J_01 : J 0 1 = 0.
Proof.
  unfold J. apply (is_RInt_unique (V := R_CompleteNormedModule)).
  evar_last.
  - apply (is_RInt_derive (V := R_CompleteNormedModule) (fun x : R => x ^ 2 / 2)).
    + intros x _. auto_derive; [exact I|]. simpl. field.
    + intros x _. apply J_cont.
  - unfold minus, plus, opp; simpl. field.
Qed.

(** ** Gamma function *)
Section Gam.
  Variable G : R -> R.
  Hypothesis HG : gamma_function G.

  Lemma G_half n : 0 < G (INR (S n) / 2).
  Proof.
    destruct HG as (G1 & G2 & GS).
    assert (P : 0 < sqrt PI) by (apply sqrt_lt_R0, PI_RGT_0).
    enough (0 < G (INR (S n) / 2) /\ 0 < G (INR (S (S n)) / 2)) by tauto.
    induction n as [|n [A B]].
    - replace (INR 1 / 2) with (1 / 2) by (simpl; field).
      replace (INR 2 / 2) with 1 by (simpl; field). rewrite G1, G2. lra.
    - split; [exact B|]. replace (INR (S (S (S n))) / 2) with (INR (S n) / 2 + 1)
        by (rewrite !S_INR; lra).
      assert (0 < INR (S n) / 2) by (pose proof (lt_0_INR (S n) ltac:(lia)); lra).
      rewrite GS by assumption. apply Rmult_lt_0_compat; assumption.
  Qed.
  Lemma G_half_nz n x : x = INR (S n) / 2 -> G x <> 0.
  Proof. intros ->. pose proof (G_half n). lra. Qed.

  Lemma Ix_b a b n : a = INR n - 1 -> I_x G a (S (S b)) = (INR b + 1) / (a + INR b + 3) * I_x G a b.
  Proof.
    intro Ha. destruct HG as (G1 & G2 & GS). unfold I_x.
    pose proof (pos_INR n). pose proof (pos_INR b).
    replace ((INR (S (S b)) + 1) / 2) with ((INR b + 1) / 2 + 1) by (rewrite !S_INR; field).
    replace (a / 2 + INR (S (S b)) / 2 + 3 / 2) with ((a / 2 + INR b / 2 + 3 / 2) + 1) by (rewrite !S_INR; field).
    rewrite (GS ((INR b + 1) / 2)), (GS (a / 2 + INR b / 2 + 3 / 2)) by lra.
    assert (N : G (a / 2 + INR b / 2 + 3 / 2) <> 0).
    { apply (G_half_nz (n + b + 1)). rewrite S_INR, !plus_INR, Ha. simpl. field. }
    replace ((-1) ^ S (S b)) with ((-1) ^ b) by (simpl; ring). field. repeat split; try lra; auto.
  Qed.
  Lemma Ix_a a b n : a = INR n - 1 -> I_x G (a + 2) b = (a + 2) / (a + INR b + 3) * I_x G a b.
  Proof.
    intro Ha. destruct HG as (G1 & G2 & GS). unfold I_x.
    pose proof (pos_INR n). pose proof (pos_INR b).
    replace ((a + 2) / 2 + 1) with (a / 2 + 1 + 1) by field.
    replace ((a + 2) / 2 + INR b / 2 + 3 / 2) with ((a / 2 + INR b / 2 + 3 / 2) + 1) by field.
    rewrite (GS (a / 2 + 1)), (GS (a / 2 + INR b / 2 + 3 / 2)) by lra.
    assert (N : G (a / 2 + INR b / 2 + 3 / 2) <> 0).
    { apply (G_half_nz (n + b + 1)). rewrite S_INR, !plus_INR, Ha. simpl. field. }
    field. repeat split; try lra; auto.
  Qed.
  Lemma Ix_00 : I_x G 0 0 = 2.
  Proof.
    destruct HG as (G1 & G2 & GS). unfold I_x. simpl.
    replace (0 / 2 + 1) with 1 by lra. replace ((0 + 1) / 2) with (1 / 2) by lra.
    replace (0 / 2 + 0 / 2 + 3 / 2) with (1 / 2 + 1) by lra. rewrite GS by lra. rewrite G1, G2.
    assert (0 < sqrt PI) by (apply sqrt_lt_R0, PI_RGT_0). field. lra.
  Qed.
  Lemma Ix_10 : I_x G 1 0 = PI / 2.
  Proof.
    destruct HG as (G1 & G2 & GS). unfold I_x. simpl.
    replace ((0 + 1) / 2) with (1 / 2) by lra.
    replace (1 / 2 + 0 / 2 + 3 / 2) with (1 + 1) by lra. rewrite !GS by lra. rewrite G1, G2.
    pose proof PI_RGT_0.
    replace ((1 + 1) * (1 / 2 * sqrt PI) * sqrt PI / (2 * (1 * 1))) with (sqrt PI * sqrt PI / 2) by field.
    rewrite sqrt_sqrt by lra. reflexivity.
  Qed.
  Lemma Ix_odd a b : I_x G a (S (2 * b)) = 0.
  Proof.
    unfold I_x. replace ((-1) ^ S (2 * b)) with (-1); [unfold Rdiv; ring|].
    rewrite <- tech_pow_Rmult, pow_mult. replace ((-1) ^ 2) with 1 by ring. rewrite pow1. ring.
  Qed.

  (** I_x is the integral its docstring announces, for even exponents. *)
  Lemma Ix_J p : forall b, I_x G (2 * INR p) b = J p b.
  Proof.
    induction p as [|p IH]; intro b.
    - replace (2 * INR 0) with 0 by (simpl; ring).
      enough (I_x G 0 b = J 0 b /\ I_x G 0 (S b) = J 0 (S b)) by tauto.
      induction b as [|b [A B]].
      + rewrite Ix_00, J_00, J_01. split; [reflexivity|exact (Ix_odd 0 0)].
      + split; [exact B|]. rewrite (Ix_b 0 b 1) by (simpl; ring). rewrite J_b, A.
        replace (2 * INR 0) with 0 by (simpl; ring). reflexivity.
    - replace (2 * INR (S p)) with (2 * INR p + 2) by (rewrite S_INR; ring).
      rewrite (Ix_a (2 * INR p) b (2 * p + 1)) by (rewrite plus_INR, mult_INR; simpl; ring).
      rewrite J_p, IH. f_equal. f_equal. ring.
  Qed.
End Gam.
