(** erf is odd, strictly increasing and bounded by 1 (the Gaussian integral). *)
From Coq Require Import Reals Lra Lia.
From Coquelicot Require Import Coquelicot.
From Verif Require Import Erf.
Open Scope R_scope.

Lemma gauss_cont t : continuous gauss t.
Proof.
  apply (ex_derive_continuous (V := R_NormedModule)). unfold gauss. auto_derive. trivial.
Qed.

Lemma gauss_int a b : ex_RInt gauss a b.
Proof. apply (ex_RInt_continuous (V := R_CompleteNormedModule)). intros; apply gauss_cont. Qed.

Lemma gauss_pos t : 0 < gauss t.
Proof. apply exp_pos. Qed.

Definition G (x : R) : R := RInt gauss 0 x.

Lemma G_derive x : is_derive G x (gauss x).
Proof.
  unfold G. apply (is_derive_RInt (V := R_CompleteNormedModule) gauss (fun y => RInt gauss 0 y) 0 x).
  - exists (mkposreal 1 Rlt_0_1). intros y _. apply RInt_correct, gauss_int.
  - apply gauss_cont.
Qed.

(** Integrand of the auxiliary integral. *)
Definition h (x t : R) : R := exp (- (x * x) * (1 + t * t)) / (1 + t * t).
Definition h' (x t : R) : R := - 2 * x * exp (- (x * x) * (1 + t * t)).

Lemma one_sq t : 0 < 1 + t * t.
Proof. pose proof (Rle_0_sqr t) as H. unfold Rsqr in H. lra. Qed.

Lemma h_derive x t : is_derive (fun u => h u t) x (h' x t).
Proof.
  unfold h, h'. pose proof (one_sq t).
  auto_derive; [trivial|]. field. lra.
Qed.

Lemma h_Derive x t : Derive (fun u => h u t) x = h' x t.
Proof. apply is_derive_unique, h_derive. Qed.

Lemma h_cont x t : continuous (h x) t.
Proof.
  apply (ex_derive_continuous (V := R_NormedModule)). unfold h. pose proof (one_sq t).
  auto_derive. lra.
Qed.

Lemma h_int x a b : ex_RInt (h x) a b.
Proof. apply (ex_RInt_continuous (V := R_CompleteNormedModule)). intros; apply h_cont. Qed.

Lemma h'_cont2 x t : continuity_2d_pt h' x t.
Proof.
  unfold h'.
  apply continuity_2d_pt_mult.
  - apply continuity_2d_pt_mult; [apply continuity_2d_pt_const|apply continuity_2d_pt_id1].
  - apply (continuity_1d_2d_pt_comp exp (fun x t => - (x * x) * (1 + t * t))).
    + apply derivable_continuous_pt, derivable_pt_exp.
    + apply continuity_2d_pt_mult.
      * apply continuity_2d_pt_opp. apply continuity_2d_pt_mult; apply continuity_2d_pt_id1.
      * apply continuity_2d_pt_plus; [apply continuity_2d_pt_const|].
        apply continuity_2d_pt_mult; apply continuity_2d_pt_id2.
Qed.

Definition H (x : R) : R := RInt (h x) 0 1.

Lemma H_derive x : is_derive H x (RInt (h' x) 0 1).
Proof.
  unfold H.
  evar_last.
  - apply (is_derive_RInt_param h 0 1 x).
    + apply filter_forall. intros y t _. eexists. apply h_derive.
    + intros t _. apply (continuity_2d_pt_ext h').
      * intros u v. symmetry. apply h_Derive.
      * apply h'_cont2.
    + apply filter_forall. intros y. apply h_int.
  - apply RInt_ext. intros t _. apply h_Derive.
Qed.

Lemma h'_int_eq x : RInt (h' x) 0 1 = - 2 * gauss x * G x.
Proof.
  transitivity (RInt (fun t => scal (- 2 * gauss x) (scal x (gauss (x * t + 0)))) 0 1).
  - apply RInt_ext. intros t _. unfold h', gauss, scal; simpl; unfold mult; simpl.
    replace (- (x * x) * (1 + t * t)) with (- (x * x) + - ((x * t + 0) * (x * t + 0))) by ring.
    rewrite exp_plus. ring.
  - pose proof (RInt_comp_lin (V := R_CompleteNormedModule) gauss x 0 0 1 (gauss_int _ _)) as E.
    pose proof (RInt_scal (V := R_CompleteNormedModule) (fun t => scal x (gauss (x * t + 0))) 0 1
                  (- 2 * gauss x)
                  (ex_RInt_comp_lin (V := R_NormedModule) gauss x 0 0 1 (gauss_int _ _))) as E2.
    etransitivity; [exact E2|].
    etransitivity; [apply f_equal; exact E|].
    replace (x * 0 + 0) with 0 by ring. replace (x * 1 + 0) with x by ring.
    unfold scal; simpl; unfold mult; simpl. unfold G. ring.
Qed.

Definition F (x : R) : R := G x * G x + H x.

Lemma F_derive x : is_derive F x 0.
Proof.
  unfold F. evar_last.
  - apply (is_derive_plus (V := R_NormedModule)).
    + apply (is_derive_mult G G x (gauss x) (gauss x) (G_derive x) (G_derive x)). intros n m; apply Rmult_comm.
    + apply H_derive.
  - rewrite h'_int_eq. unfold plus, mult; simpl. ring.
Qed.

Lemma F_const x : F x = F 0.
Proof.
  destruct (MVT_gen F 0 x (fun _ => 0)) as [c [_ Hc]].
  - intros y _. apply F_derive.
  - intros y _. apply continuity_pt_filterlim.
    apply (ex_derive_continuous (V := R_NormedModule)). exists 0. apply F_derive.
  - rewrite Rmult_0_l in Hc. lra.
Qed.

Lemma F_zero : F 0 = PI / 4.
Proof.
  unfold F. replace (G 0) with 0 by (symmetry; apply (RInt_point (V := R_CompleteNormedModule))).
  unfold H.
  transitivity (RInt (fun t => / (1 + t ^ 2)) 0 1).
  - rewrite Rmult_0_l, Rplus_0_l. apply RInt_ext. intros t _. unfold h.
    replace (- (0 * 0) * (1 + t * t)) with 0 by ring. rewrite exp_0.
    unfold Rdiv. rewrite Rmult_1_l. apply f_equal. ring.
  - replace (PI / 4) with (minus (atan 1) (atan 0))
      by (rewrite atan_1, atan_0; unfold minus, plus, opp; simpl; ring).
    apply is_RInt_unique.
    apply (is_RInt_derive (V := R_CompleteNormedModule) atan (fun t => / (1 + t ^ 2))).
    + intros t _. apply is_derive_Reals.
      apply derivable_pt_lim_atan.
    + intros t _. apply (ex_derive_continuous (V := R_NormedModule)).
      auto_derive. pose proof (one_sq t). replace (1 + t * (t * 1)) with (1 + t * t) by ring. lra.
Qed.

Lemma H_nonneg x : 0 <= H x.
Proof.
  unfold H. apply RInt_ge_0; [lra|apply h_int|].
  intros t _. unfold h. apply Rlt_le, Rdiv_lt_0_compat; [apply exp_pos|apply one_sq].
Qed.

Lemma G_sq_bound x : G x * G x <= PI / 4.
Proof. pose proof (F_const x) as E. rewrite F_zero in E. unfold F in E. pose proof (H_nonneg x). lra. Qed.

Lemma sqrtPI_pos : 0 < sqrt PI.
Proof. apply sqrt_lt_R0, PI_RGT_0. Qed.

Lemma erf_sq_bound x : erf x * erf x <= 1.
Proof.
  unfold erf. fold (G x).
  pose proof sqrtPI_pos as Hs. pose proof PI_RGT_0 as Hp.
  replace (2 / sqrt PI * G x * (2 / sqrt PI * G x)) with (4 / PI * (G x * G x)).
  - apply Rle_trans with (4 / PI * (PI / 4)).
    + apply Rmult_le_compat_l; [|apply G_sq_bound].
      apply Rlt_le, Rdiv_lt_0_compat; lra.
    + right. field. lra.
  - rewrite <- (sqrt_sqrt PI) at 1 by lra. field. lra.
Qed.

Lemma erf_bounds x : -1 <= erf x <= 1.
Proof. pose proof (erf_sq_bound x). split; nra. Qed.

Lemma erf_incr x y : x < y -> erf x < erf y.
Proof.
  intros Hxy. unfold erf. apply Rmult_lt_compat_l.
  - apply Rdiv_lt_0_compat; [lra|apply sqrtPI_pos].
  - rewrite <- (RInt_Chasles (V := R_CompleteNormedModule) gauss 0 x y) by apply gauss_int.
    assert (0 < RInt gauss x y).
    { apply RInt_gt_0; [exact Hxy| |]; intros; [apply gauss_pos|apply gauss_cont]. }
    unfold plus; simpl. lra.
Qed.

Lemma erf_le x y : x <= y -> erf x <= erf y.
Proof. intros [Hlt| ->]; [left; apply erf_incr, Hlt|lra]. Qed.

Lemma erf_0 : erf 0 = 0.
Proof.
  unfold erf. replace (RInt gauss 0 0) with 0; [ring|].
  symmetry. apply (RInt_point (V := R_CompleteNormedModule)).
Qed.

Lemma erf_odd x : erf (- x) = - erf x.
Proof.
  unfold erf.
  assert (E : RInt gauss 0 (- x) = - RInt gauss 0 x).
  { transitivity (RInt (fun y => scal (-1) (gauss (-1 * y + 0))) 0 x).
    - symmetry. etransitivity; [apply (RInt_comp_lin (V := R_CompleteNormedModule) gauss (-1) 0 0 x), gauss_int|].
      f_equal; ring.
    - transitivity (RInt (fun y => scal (-1) (gauss y)) 0 x).
      + apply RInt_ext. intros t _. f_equal. unfold gauss. f_equal. ring.
      + etransitivity; [apply (RInt_scal (V := R_CompleteNormedModule)), gauss_int|].
        unfold scal; simpl; unfold mult; simpl. ring. }
  rewrite E. ring.
Qed.
