(** Cold-to-total transfer ratio and the variance of the density field. *)
From Verif Require Import Base Quad QuadFacts HmiModel HmiSpec.
Open Scope R_scope.

(** *** Powers *)
Lemma fpow_pos x a : 0 < x -> 0 < fpow x a.
Proof. intros. unfold fpow. destruct (Rle_dec _ _); [lra|apply exp_pos]. Qed.
Lemma fpow_Rpower x a : 0 < x -> fpow x a = Rpower x a.
Proof. intros. unfold fpow. destruct (Rle_dec _ _); [lra|reflexivity]. Qed.
Lemma Rpower_le_base x y a : 0 < x -> x <= y -> 0 <= a -> Rpower x a <= Rpower y a.
Proof. intros. apply Rle_Rpower_l; lra. Qed.

Lemma pcb_range f : 0 < f < 1 -> 0 < cold_pcb f < 1.
Proof.
  intros Hf. unfold cold_pcb.
  assert (1 < sqrt (1 + 24 * (1 - f))) by (rewrite <- sqrt_1 at 1; apply sqrt_lt_1; lra).
  assert (sqrt (1 + 24 * (1 - f)) < 5); [|lra].
  replace 5 with (sqrt (5 * 5)) by (apply sqrt_square; lra). apply sqrt_lt_1; lra.
Qed.

Section Cold.
  Variables g ommh2 h f N T : R.
  Hypothesis Hg : 0 < g.
  Hypothesis Ho : 0 < ommh2.
  Hypothesis Hh : 0 < h.
  Hypothesis Hf : 0 < f < 1.
  Hypothesis HN : 0 <= N.
  Hypothesis HT : 0 < T.

  Let y k := fpow ((1 + cold_zeq ommh2 T) * g / (1 + cold_yfs f N (cold_q k ommh2 h T))) (7/10).
  Let b := fpow (1 - f) (7/10 / cold_pcb f).
  Let e := cold_pcb f / (7/10).

  Lemma zeq_pos : 0 < cold_zeq ommh2 T.
  Proof.
    unfold cold_zeq. apply Rmult_lt_0_compat; [lra|]. apply Rinv_0_lt_compat, pow_lt, Rdiv_lt_0_compat; lra.
  Qed.
  Lemma q_nonneg k : 0 <= k -> 0 <= cold_q k ommh2 h T.
  Proof.
    intros. unfold cold_q, Rdiv. apply Rmult_le_pos; [|apply Rlt_le, Rinv_0_lt_compat; exact Ho].
    apply Rmult_le_pos; [apply Rmult_le_pos; lra|]. apply pow2_ge_0.
  Qed.
  Lemma q_le k k' : k <= k' -> cold_q k ommh2 h T <= cold_q k' ommh2 h T.
  Proof.
    intros. unfold cold_q, Rdiv. apply Rmult_le_compat_r; [apply Rlt_le, Rinv_0_lt_compat; exact Ho|].
    apply Rmult_le_compat_r; [apply pow2_ge_0|]. apply Rmult_le_compat_r; lra.
  Qed.
  Lemma yfs_nonneg k : 0 <= cold_yfs f N (cold_q k ommh2 h T).
  Proof.
    unfold cold_yfs. apply Rmult_le_pos; [|apply pow2_ge_0]. apply Rmult_le_pos; [lra|].
    assert (0 < Rpower f (- 7 / 6)) by apply exp_pos. lra.
  Qed.
  Lemma yfs_le k k' : 0 <= k -> k <= k' ->
    cold_yfs f N (cold_q k ommh2 h T) <= cold_yfs f N (cold_q k' ommh2 h T).
  Proof.
    intros Hk Hkk. unfold cold_yfs. apply Rmult_le_compat_l.
    - apply Rmult_le_pos; [lra|]. assert (0 < Rpower f (- 7 / 6)) by apply exp_pos. lra.
    - apply pow_incr. pose proof (q_nonneg k Hk). pose proof (q_le k k' Hkk).
      assert (0 < / f) by (apply Rinv_0_lt_compat; lra). unfold Rdiv. split.
      + apply Rmult_le_pos; [apply Rmult_le_pos; lra|lra].
      + apply Rmult_le_compat_r; [lra|]. apply Rmult_le_compat_l; lra.
  Qed.
  Lemma arg_pos k : 0 < (1 + cold_zeq ommh2 T) * g / (1 + cold_yfs f N (cold_q k ommh2 h T)).
  Proof.
    pose proof zeq_pos. pose proof (yfs_nonneg k). apply Rdiv_lt_0_compat; [apply Rmult_lt_0_compat|]; lra.
  Qed.
  Lemma y_pos k : 0 < y k. Proof. apply fpow_pos, arg_pos. Qed.
  Lemma y_le k k' : 0 <= k -> k <= k' -> y k' <= y k.
  Proof.
    intros Hk Hkk. unfold y. rewrite !fpow_Rpower by apply arg_pos.
    apply Rpower_le_base; [apply arg_pos| |lra].
    pose proof zeq_pos. pose proof (yfs_nonneg k). pose proof (yfs_le k k' Hk Hkk).
    unfold Rdiv. apply Rmult_le_compat_l; [apply Rmult_le_pos; lra|].
    apply Rinv_le_contravar; lra.
  Qed.
  Lemma b_range : 0 < b < 1.
  Proof.
    unfold b. rewrite fpow_Rpower by lra. split; [apply exp_pos|].
    pose proof (pcb_range f Hf). unfold Rpower.
    apply Rlt_le_trans with (exp 0); [|rewrite exp_0; apply Rle_refl]. apply exp_increasing.
    assert (L : ln (1 - f) < 0) by (rewrite <- ln_1; apply ln_increasing; lra).
    assert (0 < 7/10 / cold_pcb f) by (apply Rdiv_lt_0_compat; lra).
    rewrite <- (Rmult_0_r (7/10 / cold_pcb f)). apply Rmult_lt_compat_l; assumption.
  Qed.
  Lemma e_pos : 0 < e.
  Proof. unfold e. pose proof (pcb_range f Hf). apply Rdiv_lt_0_compat; lra. Qed.
  Lemma b_e : Rpower b e = 1 - f.
  Proof.
    unfold b. rewrite fpow_Rpower by lra. rewrite Rpower_mult. unfold e. pose proof (pcb_range f Hf).
    replace (7/10 / cold_pcb f * (cold_pcb f / (7/10))) with 1 by (field; lra). apply Rpower_1. lra.
  Qed.

  Lemma ratio_eq k : Tk_cold_ratio k g ommh2 h f N T = Rpower (1 + y k) e / Rpower (b + y k) e.
  Proof.
    unfold Tk_cold_ratio. destruct (Req_EM_T f 0) as [E|_]; [lra|]. cbv zeta.
    fold (y k) b e. pose proof (y_pos k). pose proof b_range. rewrite !fpow_Rpower by lra. reflexivity.
  Qed.

  Lemma cold_bounds k : 1 <= Tk_cold_ratio k g ommh2 h f N T <= 1 / (1 - f).
  Proof.
    rewrite ratio_eq. pose proof (y_pos k). pose proof b_range. pose proof e_pos.
    assert (P1 : 0 < Rpower (1 + y k) e) by apply exp_pos.
    assert (P2 : 0 < Rpower (b + y k) e) by apply exp_pos. split.
    - apply Rmult_le_reg_r with (Rpower (b + y k) e); [exact P2|].
      replace (Rpower (1 + y k) e / Rpower (b + y k) e * Rpower (b + y k) e) with (Rpower (1 + y k) e)
        by (field; lra).
      rewrite Rmult_1_l. apply Rpower_le_base; lra.
    - apply Rmult_le_reg_r with (Rpower (b + y k) e); [exact P2|].
      replace (Rpower (1 + y k) e / Rpower (b + y k) e * Rpower (b + y k) e) with (Rpower (1 + y k) e)
        by (field; lra).
      apply Rmult_le_reg_l with (1 - f); [lra|].
      replace ((1 - f) * (1 / (1 - f) * Rpower (b + y k) e)) with (Rpower (b + y k) e) by (field; lra).
      rewrite <- b_e. rewrite Rpower_mult_distr by lra.
      apply Rpower_le_base; [apply Rmult_lt_0_compat; lra| |lra].
      assert (b * y k <= 1 * y k) by (apply Rmult_le_compat_r; lra). lra.
  Qed.

  Lemma cold_monotone k k' : 0 <= k -> k <= k' ->
    Tk_cold_ratio k g ommh2 h f N T <= Tk_cold_ratio k' g ommh2 h f N T.
  Proof.
    intros Hk Hkk. rewrite !ratio_eq. pose proof (y_pos k). pose proof (y_pos k'). pose proof b_range.
    pose proof e_pos. pose proof (y_le k k' Hk Hkk).
    assert (P2 : 0 < Rpower (b + y k) e) by apply exp_pos.
    assert (P3 : 0 < Rpower (b + y k') e) by apply exp_pos.
    apply Rmult_le_reg_r with (Rpower (b + y k) e * Rpower (b + y k') e); [apply Rmult_lt_0_compat; assumption|].
    replace (Rpower (1 + y k) e / Rpower (b + y k) e * (Rpower (b + y k) e * Rpower (b + y k') e))
      with (Rpower (1 + y k) e * Rpower (b + y k') e) by (field; lra).
    replace (Rpower (1 + y k') e / Rpower (b + y k') e * (Rpower (b + y k) e * Rpower (b + y k') e))
      with (Rpower (1 + y k') e * Rpower (b + y k) e) by (field; lra).
    rewrite !Rpower_mult_distr by lra. apply Rpower_le_base; [apply Rmult_lt_0_compat; lra| |lra].
    assert (0 <= (1 - b) * (y k - y k')) by (apply Rmult_le_pos; lra). lra.
  Qed.

  Lemma cold_near_one k : Rabs (Tk_cold_ratio k g ommh2 h f N T - 1) <= f / (1 - f).
  Proof.
    pose proof (cold_bounds k) as [L U]. rewrite Rabs_right by lra.
    replace (f / (1 - f)) with (1 / (1 - f) - 1) by (field; lra). lra.
  Qed.
End Cold.

Lemma cold_no_neutrinos k g ommh2 h N T : Tk_cold_ratio k g ommh2 h 0 N T = 1.
Proof. unfold Tk_cold_ratio. destruct (Req_EM_T 0 0); [reflexivity|lra]. Qed.

(** *** Simpson's rule on an equally spaced grid *)
Section Uniform.
  Variable d : R.
  Hypothesis Hd : 0 < d.
  Let x := fun i : nat => INR i * d.

  Lemma triple_uniform j y0 y1 y2 :
    simpson_triple (x (2*j)) (x (2*j+1)) (x (2*j+2)) y0 y1 y2 = d / 3 * (y0 + 4 * y1 + y2).
  Proof.
    unfold simpson_triple, x.
    replace (INR (2*j+1) * d - INR (2*j) * d) with d by (rewrite plus_INR; cbn [INR]; ring).
    replace (INR (2*j+2) * d - INR (2*j+1) * d) with d by (rewrite !plus_INR; cbn [INR]; ring).
    field. lra.
  Qed.
  Lemma last_uniform n y0 y1 y2 : (3 <= n)%nat ->
    simpson_last (x (n-3)) (x (n-2)) (x (n-1)) y0 y1 y2 = d / 12 * (5 * y2 + 8 * y1 - y0).
  Proof.
    intros Hn. unfold simpson_last, x.
    replace (n - 2)%nat with (n - 3 + 1)%nat by lia. replace (n - 1)%nat with (n - 3 + 2)%nat by lia.
    rewrite !plus_INR. cbn [INR]. set (q := INR (n-3)).
    replace ((q + 1) * d - q * d) with d by ring.
    replace ((q + (1 + 1)) * d - (q + 1) * d) with d by ring. field. lra.
  Qed.

  Lemma basic_uniform_nonneg p y : (forall i, (i <= 2 * p)%nat -> 0 <= y i) -> 0 <= basic_simpson p y x.
  Proof.
    intros Hy. unfold basic_simpson. apply sumR_nonneg. intros i Hi. rewrite triple_uniform.
    pose proof (Hy (2*i)%nat ltac:(lia)). pose proof (Hy (2*i+1)%nat ltac:(lia)).
    pose proof (Hy (2*i+2)%nat ltac:(lia)). apply Rmult_le_pos; lra.
  Qed.

  Lemma simpson_uniform_nonneg n y : (2 <= n)%nat -> (forall i, (i < n)%nat -> 0 <= y i) ->
    0 <= simpson n y x.
  Proof.
    intros Hn Hy. unfold simpson. destruct (Nat.even n) eqn:E.
    - destruct (Nat.eqb_spec n 2) as [->|N].
      + pose proof (Hy 0%nat ltac:(lia)). pose proof (Hy 1%nat ltac:(lia)).
        unfold x; cbn [INR]. apply Rmult_le_pos; lra.
      + pose proof (half_even n E Hn) as Hh.
        set (p := ((n - 2) / 2)%nat) in *. assert (Hp : (1 <= p)%nat) by lia.
        destruct p as [|p]; [lia|]. unfold basic_simpson. cbn [sumR].
        rewrite triple_uniform, last_uniform by lia.
        replace (n - 3)%nat with (2 * p + 1)%nat by lia. replace (n - 2)%nat with (2 * p + 2)%nat by lia.
        assert (A : 0 <= sumR p (fun j => simpson_triple (x (2 * j)%nat) (x (2 * j + 1)%nat)
            (x (2 * j + 2)%nat) (y (2 * j)%nat) (y (2 * j + 1)%nat) (y (2 * j + 2)%nat))).
        { apply (basic_uniform_nonneg p y). intros; apply Hy; lia. }
        pose proof (Hy (2*p)%nat ltac:(lia)). pose proof (Hy (2*p+1)%nat ltac:(lia)).
        pose proof (Hy (2*p+2)%nat ltac:(lia)). pose proof (Hy (n-1)%nat ltac:(lia)).
        assert (0 <= d / 3 * (y (2 * p)%nat + 4 * y (2 * p + 1)%nat + y (2 * p + 2)%nat)
          + d / 12 * (5 * y (n - 1)%nat + 8 * y (2 * p + 2)%nat - y (2 * p + 1)%nat)); [|lra].
        replace (_ + _) with (d / 12 * (4 * y (2 * p)%nat + 15 * y (2 * p + 1)%nat + 12 * y (2 * p + 2)%nat
          + 5 * y (n - 1)%nat)) by field.
        apply Rmult_le_pos; lra.
    - pose proof (half_odd n E) as Hh. apply basic_uniform_nonneg. intros; apply Hy; lia.
  Qed.
End Uniform.

Lemma integ_pos_pi : 0 < 1 / 2 / PI ^ 2.
Proof. pose proof PI_RGT_0. apply Rdiv_lt_0_compat; [lra|apply pow_lt; assumption]. Qed.

Lemma dlnk_pos n k : ln_uniform n k -> 0 < ln (k 1%nat / k 0%nat).
Proof.
  intros (P & L & _). rewrite <- ln_1. apply ln_increasing; [lra|].
  apply Rmult_lt_reg_r with (k 0%nat); [exact P|]. replace (k 1%nat / k 0%nat * k 0%nat) with (k 1%nat) by (field; lra). lra.
Qed.

Lemma k_pos n k i : ln_uniform n k -> (i < n)%nat -> 0 < k i.
Proof.
  intros (P & L & E). induction i as [|i IH]; intros Hi; [exact P|].
  rewrite E by lia. apply Rmult_lt_0_compat; [apply IH; lia|]. apply Rdiv_lt_0_compat; lra.
Qed.

Lemma integrand_nonneg n p k r i : ln_uniform n k -> (i < n)%nat -> 0 <= p i ->
  0 <= p i * k i ^ 3 * tophat (r * k i) ^ 2.
Proof.
  intros HK Hi Hp. apply Rmult_le_pos; [|apply pow2_ge_0]. apply Rmult_le_pos; [exact Hp|].
  apply Rlt_le, pow_lt. eapply k_pos; eassumption.
Qed.

Lemma sigma_square n p k r : (2 <= n)%nat -> ln_uniform n k -> (forall i, (i < n)%nat -> 0 <= p i) ->
  0 <= sigmaR_cc n p k r /\
  sigmaR_cc n p k r ^ 2 = 1 / 2 / PI ^ 2
    * simpson n (fun i => p i * k i ^ 3 * tophat (r * k i) ^ 2) (fun i => INR i * ln (k 1%nat / k 0%nat)).
Proof.
  intros Hn HK Hp. unfold sigmaR_cc. split; [apply sqrt_pos|]. rewrite pow2_sqrt; [reflexivity|].
  apply Rmult_le_pos; [apply Rlt_le, integ_pos_pi|].
  apply simpson_uniform_nonneg; [eapply dlnk_pos; eassumption|exact Hn|].
  intros. eapply integrand_nonneg; eauto.
Qed.

Lemma sigma_scale n p k r c : (1 <= n)%nat -> 0 <= c -> sigmaR_cc n (fun i => c ^ 2 * p i) k r = c * sigmaR_cc n p k r.
Proof.
  intros Hn Hc. unfold sigmaR_cc.
  rewrite (simpson_ext n _ (fun i => c ^ 2 * (p i * k i ^ 3 * tophat (r * k i) ^ 2)) _ (fun i => INR i * ln (k 1%nat / k 0%nat)))
    by (try exact Hn; intros; try reflexivity; ring).
  rewrite simpson_scal. set (S := simpson _ _ _).
  replace (1 / 2 / PI ^ 2 * (c ^ 2 * S)) with (c ^ 2 * (1 / 2 / PI ^ 2 * S)) by ring.
  rewrite sqrt_mult_alt by apply pow2_ge_0. rewrite sqrt_pow2 by exact Hc. reflexivity.
Qed.

Lemma sigma_monotone n p q k r : (2 <= n)%nat -> ln_uniform n k ->
  (forall i, (i < n)%nat -> p i <= q i) -> sigmaR_cc n p k r <= sigmaR_cc n q k r.
Proof.
  intros Hn HK Hpq. unfold sigmaR_cc. apply sqrt_le_1_alt.
  apply Rmult_le_compat_l; [apply Rlt_le, integ_pos_pi|].
  set (f := fun i => _). set (h := fun i => q i * _ * _).
  assert (0 <= simpson n (fun i => h i - f i) (fun i => INR i * ln (k 1%nat / k 0%nat))).
  { apply simpson_uniform_nonneg; [eapply dlnk_pos; eassumption|exact Hn|].
    intros i Hi. unfold f, h.
    replace (q i * k i ^ 3 * tophat (r * k i) ^ 2 - p i * k i ^ 3 * tophat (r * k i) ^ 2)
      with ((q i - p i) * k i ^ 3 * tophat (r * k i) ^ 2) by ring.
    apply (integrand_nonneg n (fun i => q i - p i) k r i HK Hi). specialize (Hpq i Hi). lra. }
  rewrite simpson_minus in H. lra.
Qed.
