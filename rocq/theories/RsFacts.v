(** Proofs about the real-space modules. *)
From Coq Require Import ZArith Lia.
From Verif Require Import Base Spec Quad Interp BaseFacts QuadFacts InterpFacts FftModel FftSpec FftFacts FftFacts2 FftFacts3 FftFacts4 FftFacts5 FftFacts6 RsModel RsSpec.
Open Scope R_scope.

Lemma all_pos_spec n p : all_pos n p = true <-> forall i, (i < n)%nat -> 0 < p i.
Proof.
  unfold all_pos. rewrite forallb_forall. split.
  - intros H i Hi. specialize (H i). rewrite in_seq in H. specialize (H ltac:(lia)). destruct (Rlt_dec 0 (p i)); [assumption|discriminate].
  - intros H i Hi. apply in_seq in Hi. destruct (Rlt_dec 0 (p i)) as [|N]; [reflexivity|]. exfalso. apply N, H. lia.
Qed.
Lemma all_neg_spec n p : all_neg n p = true <-> forall i, (i < n)%nat -> p i < 0.
Proof.
  unfold all_neg. rewrite forallb_forall. split.
  - intros H i Hi. specialize (H i). rewrite in_seq in H. specialize (H ltac:(lia)). destruct (Rlt_dec (p i) 0); [assumption|discriminate].
  - intros H i Hi. apply in_seq in Hi. destruct (Rlt_dec (p i) 0) as [|N]; [reflexivity|]. exfalso. apply N, H. lia.
Qed.
Lemma lincr n (k : A1) : (forall i, (i < n)%nat -> 0 < k i) -> incr n k -> incr n (fun i => ln (k i)).
Proof. intros P H i L. apply ln_increasing; [apply P; lia|]. apply H, L. Qed.

Lemma log_interp_sign n k p q : (1 <= n)%nat -> ((forall i, (i < n)%nat -> 0 < p i) -> 0 < log_interp n k p q) /\ ((forall i, (i < n)%nat -> p i < 0) -> log_interp n k p q < 0).
Proof.
  intros Hn. unfold log_interp. split; intros H.
  - apply all_pos_spec in H as ->. apply exp_pos.
  - assert (all_pos n p = false) as ->. { destruct (all_pos n p) eqn:E; [|reflexivity]. apply all_pos_spec with (i := 0%nat) in E; [|lia]. specialize (H 0%nat ltac:(lia)). lra. }
    apply all_neg_spec in H as ->. assert (0 < exp (interp_lin n (fun i => ln (k i)) (fun i => ln (- p i)) (ln q))) by apply exp_pos. lra.
Qed.
Lemma log_interp_node n k p i : (2 <= n)%nat -> (forall i, (i < n)%nat -> 0 < k i) -> incr n k -> (i < n)%nat -> log_interp n k p (k i) = p i.
Proof.
  intros N P I Hi. unfold log_interp. destruct (all_pos n p) eqn:E1.
  - rewrite (interp_node n (fun i => ln (k i)) (fun i => ln (p i)) i N (lincr n k P I) Hi). apply exp_ln. now apply all_pos_spec with (i := i) in E1.
  - destruct (all_neg n p) eqn:E2.
    + rewrite (interp_node n (fun i => ln (k i)) (fun i => ln (- p i)) i N (lincr n k P I) Hi). rewrite exp_ln; [ring|]. apply all_neg_spec with (i := i) in E2; [lra|exact Hi].
    + apply (interp_node n (fun i => ln (k i)) p i N (lincr n k P I) Hi).
Qed.
Lemma log_interp_scale n k p c q : (2 <= n)%nat -> (forall i, (i < n)%nat -> 0 < k i) -> incr n k -> log_interp n k (fun i => c * p i) q = c * log_interp n k p q.
Proof.
  intros N P I. pose proof (lincr n k P I) as LI. destruct (Rtotal_order c 0) as [C|[C|C]].
  - assert (E1 : all_pos n (fun i => c * p i) = all_neg n p).
    { apply eq_true_iff_eq. rewrite all_pos_spec, all_neg_spec. split; intros H i Hi; specialize (H i Hi); nra. }
    assert (E2 : all_neg n (fun i => c * p i) = all_pos n p).
    { apply eq_true_iff_eq. rewrite all_pos_spec, all_neg_spec. split; intros H i Hi; specialize (H i Hi); nra. }
    unfold log_interp. rewrite E1, E2. destruct (all_pos n p) eqn:A.
    + assert (all_neg n p = false) as ->. { destruct (all_neg n p) eqn:B; [|reflexivity]. apply all_neg_spec with (i := 0%nat) in B; [|lia]. apply all_pos_spec with (i := 0%nat) in A; [lra|lia]. }
      rewrite (interp_ext n _ _ (fun i => ln (- c) + ln (p i)) _ N) by (intros i Hi; rewrite <- ln_mult; [f_equal; ring|lra|now apply all_pos_spec with (i := i) in A]).
      rewrite (interp_plus n _ (fun _ => ln (- c))), interp_const by assumption. rewrite exp_plus, exp_ln by lra. ring.
    + destruct (all_neg n p) eqn:B; [|apply interp_scal].
      rewrite (interp_ext n _ _ (fun i => ln (- c) + ln (- p i)) _ N) by (intros i Hi; apply all_neg_spec with (i := i) in B; [rewrite <- ln_mult by lra; f_equal; ring|exact Hi]).
      rewrite (interp_plus n _ (fun _ => ln (- c))), interp_const by assumption. rewrite exp_plus, exp_ln by lra. ring.
  - subst c. unfold log_interp at 1.
    assert (all_pos n (fun i => 0 * p i) = false) as ->. { destruct (all_pos _ _) eqn:E; [|reflexivity]. apply all_pos_spec with (i := 0%nat) in E; [lra|lia]. }
    assert (all_neg n (fun i => 0 * p i) = false) as ->. { destruct (all_neg _ _) eqn:E; [|reflexivity]. apply all_neg_spec with (i := 0%nat) in E; [lra|lia]. }
    rewrite interp_scal. ring.
  - assert (E1 : all_pos n (fun i => c * p i) = all_pos n p).
    { apply eq_true_iff_eq. rewrite !all_pos_spec. split; intros H i Hi; specialize (H i Hi); nra. }
    assert (E2 : all_neg n (fun i => c * p i) = all_neg n p).
    { apply eq_true_iff_eq. rewrite !all_neg_spec. split; intros H i Hi; specialize (H i Hi); nra. }
    unfold log_interp. rewrite E1, E2. destruct (all_pos n p) eqn:A.
    + rewrite (interp_ext n _ _ (fun i => ln c + ln (p i)) _ N) by (intros i Hi; rewrite <- ln_mult; [reflexivity|lra|now apply all_pos_spec with (i := i) in A]).
      rewrite (interp_plus n _ (fun _ => ln c)), interp_const by assumption. rewrite exp_plus, exp_ln by lra. ring.
    + destruct (all_neg n p) eqn:B; [|apply interp_scal].
      rewrite (interp_ext n _ _ (fun i => ln c + ln (- p i)) _ N) by (intros i Hi; apply all_neg_spec with (i := i) in B; [rewrite <- ln_mult by lra; f_equal; ring|exact Hi]).
      rewrite (interp_plus n _ (fun _ => ln c)), interp_const by assumption. rewrite exp_plus, exp_ln by lra. ring.
Qed.
Lemma log_interp_ext n k p p' q : (2 <= n)%nat -> (forall i, (i < n)%nat -> p i = p' i) -> log_interp n k p q = log_interp n k p' q.
Proof.
  intros N H.
  assert (E1 : all_pos n p = all_pos n p'). { apply eq_true_iff_eq. rewrite !all_pos_spec. split; intros A i Hi; specialize (A i Hi); specialize (H i Hi); lra. }
  assert (E2 : all_neg n p = all_neg n p'). { apply eq_true_iff_eq. rewrite !all_neg_spec. split; intros A i Hi; specialize (A i Hi); specialize (H i Hi); lra. }
  unfold log_interp. rewrite E1, E2. destruct (all_pos n p'); [f_equal; apply interp_ext; [exact N|intros i Hi; now rewrite H]|].
  destruct (all_neg n p'); [do 2 f_equal; apply interp_ext; [exact N|intros i Hi; now rewrite H]|apply interp_ext; assumption].
Qed.
Lemma log_interp_power n k p A s q : (2 <= n)%nat -> (forall i, (i < n)%nat -> 0 < k i) -> incr n k -> A <> 0 ->
  (forall i, (i < n)%nat -> p i = A * Rpower (k i) s) -> log_interp n k p q = A * Rpower q s.
Proof.
  intros N P I HA Hp. rewrite (log_interp_ext n k p (fun i => A * Rpower (k i) s) q N Hp), log_interp_scale by assumption. f_equal.
  unfold log_interp. assert (all_pos n (fun i => Rpower (k i) s) = true) as -> by (apply all_pos_spec; intros; apply exp_pos).
  unfold Rpower. rewrite (interp_ext n _ _ (fun i => 0 + s * ln (k i)) _ N) by (intros i Hi; rewrite ln_exp; ring).
  rewrite (interp_affine n (fun i => ln (k i)) (ln q) 0 s N (lincr n k P I)). f_equal. ring.
Qed.
(** Inside the tabulated range the value stays within the tabulated values. *)
Lemma log_interp_hull n k p lo hi q : (2 <= n)%nat -> (forall i, (i < n)%nat -> 0 < k i) -> incr n k ->
  (forall i, (i < n)%nat -> lo <= p i <= hi) -> k 0%nat <= q <= k (n - 1)%nat -> lo <= log_interp n k p q <= hi.
Proof.
  intros N P I H Q. pose proof (lincr n k P I) as LI. assert (K0 : 0 < k 0%nat) by (apply P; lia).
  assert (LN : forall a b, 0 < a -> a <= b -> ln a <= ln b) by (intros a b Ha [Hb|<-]; [left; now apply ln_increasing|lra]).
  assert (EX : forall a b, a <= b -> exp a <= exp b) by (intros a b [Hb|<-]; [left; now apply exp_increasing|lra]).
  assert (QL : ln (k 0%nat) <= ln q <= ln (k (n - 1)%nat)) by (split; apply LN; lra).
  (* the extreme values are attained, so their signs are those of the table *)
  assert (MX : exists j, (j < n)%nat /\ forall i, (i < n)%nat -> p i <= p j).
  { clear -N. destruct n as [|n]; [lia|]. clear N. induction n as [|n IH]; [exists 0%nat; split; [lia|]; intros i Hi; replace i with 0%nat by lia; lra|].
    destruct IH as (j & Hj & M). destruct (Rle_dec (p (S n)) (p j)) as [L|L]; [exists j|exists (S n)]; (split; [lia|]); intros i Hi; (destruct (Nat.eq_dec i (S n)) as [-> |NE]; [lra|]); specialize (M i ltac:(lia)); lra. }
  assert (MN : exists j, (j < n)%nat /\ forall i, (i < n)%nat -> p j <= p i).
  { clear -N. destruct n as [|n]; [lia|]. clear N. induction n as [|n IH]; [exists 0%nat; split; [lia|]; intros i Hi; replace i with 0%nat by lia; lra|].
    destruct IH as (j & Hj & M). destruct (Rle_dec (p j) (p (S n))) as [L|L]; [exists j|exists (S n)]; (split; [lia|]); intros i Hi; (destruct (Nat.eq_dec i (S n)) as [-> |NE]; [lra|]); specialize (M i ltac:(lia)); lra. }
  destruct MX as (jx & Hx & MX). destruct MN as (jn & Hmn & MN). pose proof (H jx Hx) as Bx. pose proof (H jn Hmn) as Bn.
  enough (p jn <= log_interp n k p q <= p jx) by lra. unfold log_interp.
  destruct (all_pos n p) eqn:E1.
  - assert (PP : forall i, (i < n)%nat -> 0 < p i) by now apply all_pos_spec.
    assert (B : ln (p jn) <= interp_lin n (fun i => ln (k i)) (fun i => ln (p i)) (ln q) <= ln (p jx)).
    { apply interp_bounds; [exact N|exact LI|lra|lra|]. intros i Hi. split; apply LN; auto. }
    rewrite <- (exp_ln (p jn)) by auto. rewrite <- (exp_ln (p jx)) by auto. split; apply EX; apply B.
  - destruct (all_neg n p) eqn:E2.
    + assert (PP : forall i, (i < n)%nat -> p i < 0) by now apply all_neg_spec. pose proof (PP jn Hmn). pose proof (PP jx Hx).
      assert (B : ln (- p jx) <= interp_lin n (fun i => ln (k i)) (fun i => ln (- p i)) (ln q) <= ln (- p jn)).
      { apply interp_bounds; [exact N|exact LI|lra|lra|]. intros i Hi. specialize (PP i Hi). specialize (MX i Hi). specialize (MN i Hi). split; apply LN; lra. }
      assert (X1 : exp (interp_lin n (fun i => ln (k i)) (fun i => ln (- p i)) (ln q)) <= - p jn) by (rewrite <- (exp_ln (- p jn)) by lra; apply EX; apply B).
      assert (X2 : - p jx <= exp (interp_lin n (fun i => ln (k i)) (fun i => ln (- p i)) (ln q))) by (rewrite <- (exp_ln (- p jx)) at 1 by lra; apply EX; apply B).
      lra.
    + apply interp_bounds; [exact N|exact LI|lra|lra|]. intros i Hi. split; auto.
Qed.

(** ** The transformer *)
Lemma pow10_exp x : pow10 x = exp (x * ln 10). Proof. reflexivity. Qed.
Lemma log10_ln x : log10 x * ln 10 = ln x.
Proof. unfold log10, ten. field. pose proof ln_ten_pos. unfold ten in *. lra. Qed.
Lemma k_grid n k_min k_max i : (2 <= n)%nat -> 0 < k_min -> 0 < k_max -> (i < n)%nat ->
  logspace (log10 k_min) (log10 k_max) n i = log_grid n (mid k_min k_max) (step n k_min k_max) i.
Proof.
  intros N A B Hi. unfold logspace. rewrite linspace_eq by assumption. rewrite pow10_exp. unfold log_grid, mid. rewrite <- exp_plus. f_equal.
  assert (M : INR (n - 1) = INR n - 1) by (rewrite minus_INR by lia; reflexivity). pose proof (INR_pred_pos n N) as MP.
  rewrite Rmult_plus_distr_r, log10_ln. replace (INR i * ((log10 k_max - log10 k_min) / INR (n - 1)) * ln 10) with (INR i * ((log10 k_max * ln 10 - log10 k_min * ln 10) / INR (n - 1))) by (field; lra).
  rewrite !log10_ln. unfold step. rewrite <- M. field. lra.
Qed.
Section Gamma.
  Variables lgr lgi : R -> R -> R.
  Theorem make_spec ty n k_min k_max lo hi T : 0 < k_min -> k_min < k_max -> make_transformer lgr lgi ty n k_min k_max lo hi = Ok T ->
    let D := step n k_min k_max in let c := mid k_min k_max in
    (2 <= n)%nat /\ 0 < D /\ t_n T = n /\ t_q T = 0 /\ t_lo T = lo /\ t_hi T = hi /\
    (ty = "wp"%string /\ t_mu T = 0 \/ ty = "ds"%string /\ t_mu T = 2) /\
    0 < t_kr T /\ Rabs (ln (t_kr T)) <= D / 2 /\ low_ringing lgi (t_mu T) 0 D (t_kr T) /\
    work lgr lgi n (t_mu T) D 0 (t_kr T) (t_xsave T) /\
    (forall i, (i < n)%nat -> t_k T i = log_grid n c D i) /\
    (forall j, t_rp T j = log_grid n (t_kr T / c) D j * exp (- D)).
  Proof.
    intros K1 K2. unfold make_transformer. destruct (Nat.ltb_spec n 2) as [L|N]; [discriminate|].
    assert (KM : 0 < k_max) by lra. set (k := logspace (log10 k_min) (log10 k_max) n).
    assert (G : forall i, (i < n)%nat -> k i = log_grid n (mid k_min k_max) (step n k_min k_max) i) by (intros i Hi; now apply k_grid).
    assert (CP : 0 < mid k_min k_max) by apply exp_pos.
    assert (DD : ln (k 1%nat) - ln (k 0%nat) = step n k_min k_max).
    { rewrite !G by lia. rewrite !ln_log_grid by exact CP. change (INR 1) with 1. change (INR 0) with 0. field. }
    assert (DP : 0 < step n k_min k_max).
    { unfold step. apply Rdiv_lt_0_compat; [|now apply INR_pred_pos]. pose proof (ln_increasing k_min k_max K1 K2). lra. }
    rewrite DD. destruct (transform_parameters ty) as [[q mu]|e] eqn:TP; cbn [bind fst snd]; [|discriminate].
    destruct (fhti lgr lgi n mu (step n k_min k_max) q 1 1) as [[kr xs]|e] eqn:F; cbn [bind fst snd]; [|discriminate].
    intros H. injection H as <-. cbn. 
    assert (Q0 : q = 0 /\ (ty = "wp"%string /\ mu = 0 \/ ty = "ds"%string /\ mu = 2)).
    { unfold transform_parameters in TP. destruct (String.eqb_spec ty "wp") as [-> |]; [injection TP as <- <-; tauto|]. destruct (String.eqb_spec ty "ds") as [-> |]; [injection TP as <- <-; tauto|discriminate]. }
    destruct Q0 as [-> TY]. apply fhti_work in F as (_ & AK & W). cbn in AK. injection AK as AK.
    destruct (krgood_spec lgi mu 0 (step n k_min k_max) 1 ltac:(lra) ltac:(lra)) as (P1 & P2 & P3). cbv zeta in P1, P2, P3. rewrite AK in P1, P2, P3. rewrite ln_1, Rminus_0_r in P2. rewrite (Rabs_right (step n k_min k_max)) in P2 by lra.
    repeat (split; [first [assumption|reflexivity]|]).
    intros j. unfold log_grid. fold (mid k_min k_max). rewrite (Rmult_assoc (kr / mid k_min k_max)), <- exp_plus, Rmult_comm. f_equal. f_equal. field.
  Qed.
  Lemma make_total ty n k_min k_max lo hi : (2 <= n)%nat -> ty = "wp"%string \/ ty = "ds"%string -> exists T, make_transformer lgr lgi ty n k_min k_max lo hi = Ok T.
  Proof.
    intros N TY. unfold make_transformer. destruct (Nat.ltb_spec n 2); [lia|].
    assert (TP : exists mu, transform_parameters ty = Ok (0, mu)) by (destruct TY as [-> | ->]; eexists; reflexivity). destruct TP as [mu ->]. cbn [bind fst snd].
    match goal with |- context [fhti lgr lgi n mu ?d 0 1 1] => destruct (fhti_total lgr lgi n mu d 0 1 1 ltac:(lia) ltac:(lia)) as (kr & xs & ->) end; [congruence|]. cbn [bind]. eauto.
  Qed.
  Lemma transform_ok T a n_in k_in : (1 <= t_n T)%nat -> work lgr lgi (t_n T) (t_mu T) a 0 (t_kr T) (t_xsave T) -> t_q T = 0 -> forall pk, exists pts, transform T n_in k_in pk = Ok pts.
  Proof.
    intros Hn W Q pk. unfold transform. rewrite Q. destruct (Req_EM_T 0 0); [|contradiction].
    match goal with |- context [fht ?n ?b ?xs (-1)] => destruct (fht_closed lgr lgi n (t_mu T) a 0 (t_kr T) xs b (-1) Hn W (or_intror eq_refl)) as (o & -> & _) end. cbn [bind]. eauto.
  Qed.

  (** The value attached to a separation is the transform one step further out. *)
  Theorem transform_value ty n k_min k_max lo hi T n_in k_in pk pts : 0 < k_min -> k_min < k_max -> make_transformer lgr lgi ty n k_min k_max lo hi = Ok T ->
    transform T n_in k_in pk = Ok pts ->
    let D := step n k_min k_max in let c := mid k_min k_max in let k := log_grid n c D in
    forall rp xi, In (rp, xi) pts <-> exists j, (j < n)%nat /\ rp * exp D = log_grid n (t_kr T / c) D j /\ lo < rp < hi /\
      2 * PI * rp * xi = sumR n (fun i => k i * log_interp n_in k_in pk (k i) * bessel_kernel lgi n (t_mu T) D (ln (k i * (rp * exp D)))).
  Proof.
    intros K1 K2 MK TR D c k rp xi. destruct (make_spec _ _ _ _ _ _ _ K1 K2 MK) as (N & DP & TN & TQ & TL & TH & TY & KP & _ & LR & W & TK & TRP). change (step n k_min k_max) with D in DP, LR, W, TK, TRP; change (mid k_min k_max) with c in TK, TRP.
    unfold transform in TR. rewrite TQ, TN in TR. destruct (Req_EM_T 0 0); [|contradiction].
    match type of TR with bind (fht n ?b ?xs _) _ = _ => destruct (fht n b xs (-1)) as [o|] eqn:F; [|discriminate] end. cbn [bind] in TR. injection TR as <-.
    assert (CP : 0 < c) by apply exp_pos. assert (D0 : D <> 0) by lra. pose proof PI_RGT_0 as PP.
    pose proof (kernel_form lgr lgi n (t_mu T) D (t_kr T) c _ _ (-1) o ltac:(lia) KP CP D0 W (fun _ => LR) (or_intror eq_refl) F) as KF.
    assert (RP : forall j, t_rp T j * exp D = log_grid n (t_kr T / c) D j).
    { intros j. rewrite TRP, Rmult_assoc, <- exp_plus. replace (- D + D) with 0 by ring. rewrite exp_0. ring. }
    assert (RPP : forall j, 0 < t_rp T j).
    { intros j. rewrite TRP. apply Rmult_lt_0_compat; [apply log_grid_pos, Rdiv_lt_0_compat; assumption|apply exp_pos]. }
    assert (VAL : forall j, (j < n)%nat -> 2 * PI * t_rp T j * (o j / (2 * PI) / t_rp T j) = sumR n (fun i => k i * log_interp n_in k_in pk (k i) * bessel_kernel lgi n (t_mu T) D (ln (k i * (t_rp T j * exp D))))).
    { intros j Hj. transitivity (o j); [pose proof (RPP j); field; split; lra|]. rewrite KF by exact Hj. apply sumR_ext. intros i Hi. rewrite TK by exact Hi. fold (k i). rewrite RP. reflexivity. }
    rewrite in_map_iff. split.
    - intros (j & E & IN). injection E as <- <-. unfold kept in IN. rewrite TN in IN. apply filter_In in IN as [IN RG]. apply in_seq in IN. exists j. split; [lia|]. split; [apply RP|].
      split; [|apply VAL; lia]. unfold in_range in RG. rewrite TL, TH in RG. destruct (Rlt_dec lo (t_rp T j)), (Rlt_dec (t_rp T j) hi); cbn in RG; try discriminate. now split.
    - intros (j & Hj & E & RG & V). assert (rp = t_rp T j) as ->.
      { rewrite <- RP in E. apply Rmult_eq_reg_r in E; [exact E|]. apply Rgt_not_eq, exp_pos. }
      exists j. split.
      + f_equal. rewrite <- VAL in V by exact Hj. apply Rmult_eq_reg_l in V; [congruence|]. specialize (RPP j). nra.
      + unfold kept. rewrite TN. apply filter_In. split; [apply in_seq; lia|]. unfold in_range. rewrite TL, TH. destruct (Rlt_dec lo (t_rp T j)), (Rlt_dec (t_rp T j) hi); try reflexivity; lra.
  Qed.
  (** On a log-periodic mode: the exact Hankel transform, one step further out. *)
  Theorem transform_mode ty n k_min k_max lo hi T n_in k_in pk pts m psi : 0 < k_min -> k_min < k_max -> make_transformer lgr lgi ty n k_min k_max lo hi = Ok T ->
    transform T n_in k_in pk = Ok pts -> let D := step n k_min k_max in let c := mid k_min k_max in let k := log_grid n c D in let y := mode_freq n D m in
    (1 <= m)%nat -> (2 * m < n)%nat -> (forall i, (i < n)%nat -> k i * log_interp n_in k_in pk (k i) = cos (2 * y * ln (k i) + psi)) ->
    forall rp xi, In (rp, xi) pts -> 2 * PI * rp * xi = cos (bessel_phase lgi (t_mu T) 0 y + psi - 2 * y * ln (rp * exp D)).
  Proof.
    intros K1 K2 MK TR D c k y Hm H2 HA rp xi IN. destruct (make_spec _ _ _ _ _ _ _ K1 K2 MK) as (N & DP & TN & TQ & TL & TH & TY & KP & _ & LR & W & TK & TRP). change (step n k_min k_max) with D in DP, LR, W, TK, TRP; change (mid k_min k_max) with c in TK, TRP.
    unfold transform in TR. rewrite TQ, TN in TR. destruct (Req_EM_T 0 0); [|contradiction].
    match type of TR with bind (fht n ?b ?xs _) _ = _ => destruct (fht n b xs (-1)) as [o|] eqn:F; [|discriminate] end. cbn [bind] in TR. injection TR as <-.
    assert (CP : 0 < c) by apply exp_pos. assert (D0 : D <> 0) by lra. pose proof PI_RGT_0 as PP.
    apply in_map_iff in IN as (j & E & IN). injection E as <- <-. unfold kept in IN. rewrite TN in IN. apply filter_In in IN as [IN _]. apply in_seq in IN.
    assert (RP : t_rp T j * exp D = log_grid n (t_kr T / c) D j).
    { rewrite TRP, Rmult_assoc, <- exp_plus. replace (- D + D) with 0 by ring. rewrite exp_0. ring. }
    assert (RPP : 0 < t_rp T j) by (rewrite TRP; apply Rmult_lt_0_compat; [apply log_grid_pos, Rdiv_lt_0_compat; assumption|apply exp_pos]).
    transitivity (o j); [field; split; lra|]. rewrite RP.
    assert (HA' : forall i, (i < n)%nat -> t_k T i * log_interp n_in k_in pk (t_k T i) = Rpower (log_grid n c D i) (IZR (-1) * 0) * cos (2 * mode_freq n D m * ln (log_grid n c D i) + psi)).
    { intros i Hi. rewrite TK by exact Hi. fold (k i). rewrite HA by exact Hi. rewrite Rmult_0_r, Rpower_O by (apply log_grid_pos; exact CP). unfold k. fold y. ring. }
    pose proof (mode_exact lgr lgi n (t_mu T) D 0 (t_kr T) c _ (-1) m psi _ o ltac:(lia) KP CP D0 W (or_intror eq_refl) Hm H2 HA' F j ltac:(lia)) as ME.
    rewrite ME. cbn [Z.eqb]. rewrite Rmult_0_r, Rpower_O by (apply log_grid_pos, Rdiv_lt_0_compat; assumption).
    assert (BG : bessel_gain lgr (t_mu T) 0 (mode_freq n D m) = 1) by exact (amp_zero lgr (t_mu T) (mode_freq n D m)).
    rewrite BG, Rinv_1, !Rmult_1_l. reflexivity.
  Qed.
End Gamma.
