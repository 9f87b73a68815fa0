(** Growth of structure: exact solutions of the coded equation. *)
From Coquelicot Require Import Coquelicot.
From Verif Require Import Base Quad HmiModel HmiSpec HmiFacts.
Open Scope R_scope.

Lemma lim_cont f x l : derivable_pt_lim f x l -> continuity_pt f x.
Proof. intros D. apply derivable_continuous_pt. exists l. exact D. Qed.

(** Mean value theorem for a function with a given derivative. *)
Lemma mvt (f f' : R -> R) a b : a < b -> (forall t, a <= t <= b -> derivable_pt_lim f t (f' t)) ->
  exists t, a < t < b /\ f b - f a = f' t * (b - a).
Proof.
  intros Hab D.
  destruct (MVT_cor2 f f' a b Hab D) as [t [E H]]. exists t. split; [lra|]. rewrite E. reflexivity.
Qed.

(** Continuity, quantitatively. *)
Lemma cont_eps f x : continuity_pt f x -> forall e, 0 < e ->
  exists dl, 0 < dl /\ forall t, Rabs (t - x) < dl -> Rabs (f t - f x) < e.
Proof.
  intros C e He. destruct (C e He) as [dl [Hd H]]. exists dl. split; [exact Hd|]. intros t Ht.
  destruct (Req_dec t x) as [->|N].
  - rewrite Rminus_diag_eq, Rabs_R0; [exact He|reflexivity].
  - apply (H t). split; [|exact Ht]. split; [exact I|auto].
Qed.

(** A function positive at a and not positive somewhere has a first zero. *)
Lemma first_zero f a b : a <= b -> (forall t, a <= t <= b -> continuity_pt f t) ->
  0 < f a -> f b <= 0 -> exists t, a < t <= b /\ f t = 0 /\ forall s, a <= s < t -> 0 < f s.
Proof.
  intros Hab C Ha Hb.
  set (E := fun t => a <= t <= b /\ forall s, a <= s <= t -> 0 < f s).
  destruct (completeness E) as [m [Hub Hl]].
  { exists b. intros t [[_ H] _]. exact H. }
  { exists a. split; [lra|]. intros s Hs. replace s with a by lra. exact Ha. }
  assert (Ea : E a) by (split; [lra|]; intros s Hs; replace s with a by lra; exact Ha).
  assert (Ham : a <= m) by (apply Hub, Ea).
  assert (Hmb : m <= b) by (apply Hl; intros t [[_ H] _]; exact H).
  assert (Below : forall s, a <= s < m -> 0 < f s).
  { intros s Hs. destruct (Rlt_dec 0 (f s)) as [|N]; [assumption|exfalso].
    assert (U : is_upper_bound E s).
    { intros t [Ht P]. destruct (Rle_dec t s); [assumption|]. exfalso. apply N, P. lra. }
    specialize (Hl s U). lra. }
  assert (Fm : f m = 0).
  { destruct (Rtotal_order (f m) 0) as [L|[Q|G]]; [|exact Q|].
    - exfalso. destruct (cont_eps f m (C m (conj Ham Hmb)) (- f m)) as [dl [Hd K]]; [lra|].
      assert (Hne : a < m). { destruct (Rle_lt_or_eq_dec _ _ Ham) as [|Q]; [assumption|]. subst. lra. }
      set (s := Rmax a (m - dl / 2)).
      assert (Hs : a <= s < m). { unfold s, Rmax. destruct (Rle_dec _ _); lra. }
      assert (Rabs (s - m) < dl).
      { rewrite Rabs_left by lra. unfold s, Rmax. destruct (Rle_dec _ _); lra. }
      pose proof (K s H) as K1. apply Rabs_def2 in K1. pose proof (Below s Hs). lra.
    - exfalso. destruct (cont_eps f m (C m (conj Ham Hmb)) (f m) G) as [dl [Hd K]].
      destruct (Rle_lt_or_eq_dec _ _ Hmb) as [Lm|Q]; [|subst; lra].
      set (s := Rmin b (m + dl / 2)).
      assert (Hs : m < s <= b) by (unfold s, Rmin; destruct (Rle_dec _ _); lra).
      assert (E s).
      { split; [lra|]. intros t Ht. destruct (Rlt_dec t m) as [|N]; [apply Below; lra|].
        assert (Rabs (t - m) < dl).
        { rewrite Rabs_right by lra. unfold s, Rmin in Ht. destruct (Rle_dec _ _); lra. }
        pose proof (K t H) as K1. apply Rabs_def2 in K1. lra. }
      specialize (Hub s H). lra. }
  exists m. split.
  - split; [|exact Hmb]. destruct (Rle_lt_or_eq_dec _ _ Ham) as [|Q]; [assumption|]. subst. lra.
  - split; [exact Fm|exact Below].
Qed.

(** A function that does not increase where it is positive stays non-positive. *)
Lemma barrier f f' a b : (forall t, a <= t <= b -> derivable_pt_lim f t (f' t)) ->
  f a <= 0 -> (forall t, a <= t <= b -> 0 < f t -> f' t <= 0) ->
  forall t, a <= t <= b -> f t <= 0.
Proof.
  intros D Ha HB t1 Ht. destruct (Rle_dec (f t1) 0) as [|N]; [assumption|exfalso].
  assert (C : forall t, a <= t <= b -> continuity_pt f t) by (intros; eapply lim_cont; apply D; assumption).
  set (E := fun t => a <= t <= t1 /\ f t <= 0).
  destruct (completeness E) as [m [Hub Hl]].
  { exists t1. intros t [[_ H] _]. exact H. }
  { exists a. split; [lra|exact Ha]. }
  assert (Ham : a <= m) by (apply Hub; split; [lra|exact Ha]).
  assert (Hmb : m <= t1) by (apply Hl; intros t [[_ H] _]; exact H).
  assert (Fm : f m <= 0).
  { destruct (Rle_dec (f m) 0) as [|G]; [assumption|exfalso]. apply Rnot_le_lt in G.
    destruct (cont_eps f m (C m ltac:(lra)) (f m) G) as [dl [Hd K]].
    assert (U : is_upper_bound E (m - dl / 2)).
    { intros t [Ht2 P]. destruct (Rle_dec t (m - dl / 2)) as [|Q]; [assumption|exfalso].
      assert (t <= m) by (apply Hub; split; assumption).
      assert (A : Rabs (t - m) < dl) by (rewrite Rabs_left1 by lra; lra).
      specialize (K t A). apply Rabs_def2 in K. lra. }
    specialize (Hl _ U). lra. }
  assert (m < t1). { destruct (Rle_lt_or_eq_dec _ _ Hmb) as [|Q]; [assumption|]. subst. lra. }
  destruct (mvt f f' m t1 H) as [x [Hx Eq]]. { intros; apply D; lra. }
  assert (Px : 0 < f x).
  { destruct (Rlt_dec 0 (f x)) as [|Q]; [assumption|exfalso].
    assert (x <= m); [|lra]. apply Hub. split; [lra|]. lra. }
  assert (f' x <= 0) by (apply HB; [lra|exact Px]).
  assert (f' x * (t1 - m) <= 0); [|lra].
  rewrite <- (Rmult_0_l (t1 - m)). apply Rmult_le_compat_r; lra.
Qed.

Section Growth.
  Variable c : cosmo.
  Hypothesis HD : dark_energy_law c.
  Hypothesis HF : flat_universe c.
  Variable d v : R -> R.
  Hypothesis HS : solves_growth c d v.
  Let a0 := g_a_init.

  Lemma a0_lt_1 : a0 < 1. Proof. unfold a0, g_a_init. lra. Qed.

  Lemma d_der a : a0 <= a <= 1 -> derivable_pt_lim d a (v a).
  Proof. intros H. destruct HS as (_ & _ & D). destruct (D a H) as [D1 _]. exact D1. Qed.
  Lemma v_der a : a0 <= a <= 1 -> derivable_pt_lim v a (snd (growth_rhs c a (d a) (v a))).
  Proof. intros H. destruct HS as (_ & _ & D). destruct (D a H) as [_ D1]. exact D1. Qed.

  Lemma d_incr_while t : a0 <= t <= 1 -> (forall s, a0 <= s < t -> 0 < v s) -> d a0 <= d t.
  Proof.
    intros Ht Hv. destruct (Rle_lt_or_eq_dec _ _ (proj1 Ht)) as [L|Q]; [|subst; lra].
    destruct (mvt d v a0 t L) as [x [Hx E]]. { intros; apply d_der; lra. }
    assert (0 < v x) by (apply Hv; lra).
    assert (0 < v x * (t - a0)) by (apply Rmult_lt_0_compat; lra). lra.
  Qed.

  Lemma v_pos a : a0 <= a <= 1 -> 0 < v a.
  Proof.
    intros Ha. destruct (Rlt_dec 0 (v a)) as [|N]; [assumption|exfalso]. apply Rnot_lt_le in N.
    destruct HS as (Ed & Ev & _).
    destruct (first_zero v a0 a) as (t & Ht & Et & Hp); [lra| | |exact N|].
    { intros t Ht. eapply lim_cont. apply v_der. lra. }
    { fold a0 in Ev. rewrite Ev. apply v_init_pos; assumption. }
    assert (Hd : 0 < d t).
    { apply Rlt_le_trans with (d a0); [|apply d_incr_while; [lra|exact Hp]].
      fold a0 in Ed. rewrite Ed. apply d_init_pos. }
    assert (Hder := v_der t ltac:(lra)). unfold growth_rhs in Hder. cbn [fst snd] in Hder.
    rewrite Et in Hder.
    set (l := _ + _) in Hder. assert (Hl : 0 < l).
    { unfold l. replace (- (2 + AH c t (g_Om c) (g_Ode c) / Hubble2 c t (g_Om c) (g_Ode c) (g_Ok c)) * 0 / t) with 0
        by (unfold Rdiv; ring). rewrite Rplus_0_l.
      assert (P0 : 0 < t) by (pose proof a_init_pos; unfold a0 in *; lra).
      pose proof (omega_m_range c HD HF t P0) as [P1 _].
      apply Rdiv_lt_0_compat; [|apply pow_lt; exact P0].
      apply Rmult_lt_0_compat; [|exact Hd]. apply Rmult_lt_0_compat; [lra|exact P1]. }
    destruct (Hder l Hl) as [dl K].
    set (h := - Rmin ((t - a0) / 2) (dl / 2)). pose proof (cond_pos dl).
    assert (Hh : - (t - a0) < h < 0 /\ Rabs h < dl).
    { unfold h, Rmin. destruct (Rle_dec _ _); split; try lra; rewrite Rabs_left; lra. }
    specialize (K h ltac:(lra) (proj2 Hh)).
    rewrite Et, Rminus_0_r in K. apply Rabs_def2 in K.
    assert (P : 0 < v (t + h) / h) by lra.
    assert (V : 0 < v (t + h)) by (apply Hp; lra).
    assert (v (t + h) / h < 0); [|lra].
    unfold Rdiv. rewrite <- (Rmult_0_r (v (t + h))). apply Rmult_lt_compat_l; [exact V|].
    apply Rinv_lt_0_compat; lra.
  Qed.

  Lemma growth_increasing a b : a0 <= a -> a < b -> b <= 1 -> d a < d b.
  Proof.
    intros. destruct (mvt d v a b) as [x [Hx E]]; [lra| |].
    { intros; apply d_der; lra. }
    assert (0 < v x * (b - a)) by (apply Rmult_lt_0_compat; [apply v_pos|]; lra). lra.
  Qed.

  Lemma growth_pos a : a0 <= a <= 1 -> 0 < d a.
  Proof.
    intros Ha. apply Rlt_le_trans with (d a0).
    - destruct HS as (Ed & _). fold a0 in Ed. rewrite Ed. apply d_init_pos.
    - apply d_incr_while; [exact Ha|]. intros. apply v_pos. lra.
  Qed.

  (** a v - d: how far the growth rate exceeds one. *)
  Let s (a : R) : R := a * v a - d a.
  Let s' (a : R) : R := a * snd (growth_rhs c a (d a) (v a)).

  Lemma s_der a : a0 <= a <= 1 -> derivable_pt_lim s a (s' a).
  Proof.
    intros Ha. apply is_derive_lim. unfold s, s'.
    replace (a * snd (growth_rhs c a (d a) (v a)))
      with ((1 * v a + a * snd (growth_rhs c a (d a) (v a))) + - v a) by ring.
    apply (is_derive_plus (K := R_AbsRing) (V := R_NormedModule) (fun t => t * v t) (fun t => - d t)).
    - apply (is_derive_mult (fun t => t) v a 1); [apply is_derive_lim, derivable_pt_lim_id| |intros; apply Rmult_comm].
      apply is_derive_lim, v_der, Ha.
    - apply (is_derive_opp (K := R_AbsRing) (V := R_NormedModule) d). apply is_derive_lim, d_der, Ha.
  Qed.

  Lemma s'_eq a : a0 <= a <= 1 -> let W := Omega_m c a (g_Om c) (g_Ode c) (g_Ok c) in
    let w := co_w c (-1 + 1 / a) in
    s' a = - ((3/2 - 3/2 * w * (1 - W)) * s a + 3/2 * (1 - w) * (1 - W) * d a) / a.
  Proof.
    intros Ha W w. unfold s', growth_rhs. cbn [snd]. pose proof a_init_pos.
    assert (P0 : 0 < a) by (unfold a0 in *; lra).
    rewrite (drag c HD HF a P0). fold W w. unfold s. field. lra.
  Qed.

  Lemma rate_le_one a : a0 <= a <= 1 -> a * v a <= d a.
  Proof.
    intros Ha. assert (s a <= 0); [|unfold s in *; lra].
    apply (barrier s s' a0 1); [exact s_der| | |exact Ha].
    - unfold s. destruct HS as (Ed & Ev & _). unfold a0. rewrite Ed, Ev, v_init_eq.
      pose proof (f_range c HD HF). pose proof (d_init_pos c).
      assert (0 <= g_f c * d_init c) by (apply Rmult_le_pos; lra). lra.
    - intros t Ht P. rewrite (s'_eq t Ht). cbv zeta.
      pose proof a_init_pos. assert (P0 : 0 < t) by (unfold a0 in *; lra).
      pose proof (omega_m_range c HD HF t P0) as [P1 P2].
      destruct HF as (_ & _ & _ & Hw). specialize (Hw (-1 + 1 / t) (z_nonneg t ltac:(lra))).
      set (W := Omega_m _ _ _ _ _) in *. set (w := co_w c _) in *.
      pose proof (growth_pos t Ht) as Pd.
      assert (Q1 : 0 <= 3/2 - 3/2 * w * (1 - W)).
      { assert (w * (1 - W) <= 1 * (1 - W)) by (apply Rmult_le_compat_r; lra). lra. }
      assert (Q2 : 0 <= (1 - w) * (1 - W)) by (apply Rmult_le_pos; lra).
      assert (Q3 : 0 <= (3/2 - 3/2 * w * (1 - W)) * s t) by (apply Rmult_le_pos; lra).
      assert (Q4 : 0 <= (1 - w) * (1 - W) * d t) by (apply Rmult_le_pos; lra).
      unfold Rdiv. rewrite Ropp_mult_distr_l_reverse. rewrite <- Ropp_0. apply Ropp_le_contravar.
      apply Rmult_le_pos; [|apply Rlt_le, Rinv_0_lt_compat; exact P0]. lra.
  Qed.

  (** d/a does not increase. *)
  Lemma ratio_der a : a0 <= a <= 1 -> derivable_pt_lim (fun t => d t / t) a (s a / a ^ 2).
  Proof.
    intros Ha. pose proof a_init_pos. assert (P0 : 0 < a) by (unfold a0 in *; lra).
    apply is_derive_lim. replace (s a / a ^ 2) with ((v a * a - d a * 1) / a ^ 2) by (unfold s; field; lra).
    apply (is_derive_div d (fun t => t) a (v a) 1);
      [apply is_derive_lim, d_der, Ha|apply is_derive_Reals, derivable_pt_lim_id|lra].
  Qed.

  Lemma ratio_decreasing a b : a0 <= a -> a <= b -> b <= 1 -> d b / b <= d a / a.
  Proof.
    intros. destruct (Rle_lt_or_eq_dec _ _ H0) as [L|Q]; [|subst; lra].
    destruct (mvt (fun t => d t / t) (fun t => s t / t ^ 2) a b L) as [x [Hx E]].
    { intros; apply ratio_der; lra. }
    cbv beta in E.
    assert (s x <= 0) by (unfold s; pose proof (rate_le_one x ltac:(lra)); lra).
    pose proof a_init_pos. assert (P0 : 0 < x) by (unfold a0 in *; lra).
    assert (s x / x ^ 2 * (b - a) <= 0); [|lra].
    rewrite <- (Rmult_0_l (b - a)). apply Rmult_le_compat_r; [lra|].
    unfold Rdiv. rewrite <- (Rmult_0_l (/ x ^ 2)). apply Rmult_le_compat_r; [|assumption].
    apply Rlt_le, Rinv_0_lt_compat, pow_lt, P0.
  Qed.

  (** Einstein-de Sitter. *)
  Lemma eds_growth : co_Om0 c + co_Onu0 c = 1 -> forall a, a0 <= a <= 1 -> d a = a.
  Proof.
    intros E1. pose proof a_init_pos as P00.
    assert (EO : forall a, 0 < a -> Omega_m c a (g_Om c) (g_Ode c) (g_Ok c) = 1).
    { intros a Ha. unfold Omega_m. rewrite (hub_eq c HF). unfold g_Ode, g_Om. rewrite E1.
      replace (1 * / a ^ 3 + (1 - 1) * co_de c (-1 + 1 / a)) with (1 * / a ^ 3) by ring.
      field. lra. }
    assert (Ef : g_f c = 0) by (unfold g_f; rewrite EO by assumption; ring).
    assert (Ed : d a0 = a0).
    { destruct HS as (H & _). unfold a0. rewrite H. unfold d_init. rewrite Ef. unfold fpow.
      destruct (Rle_dec _ _); [lra|]. replace (1 - 3 * 0 / 5) with 1 by field. apply Rpower_1; assumption. }
    assert (Es : s a0 = 0).
    { unfold s. destruct HS as (H1 & H2 & _). unfold a0. rewrite H1, H2, v_init_eq, Ef. field. }
    assert (S0 : forall a, a0 <= a <= 1 -> s a = 0).
    { intros a Ha. assert (Q : s a * s a <= 0); [|pose proof (Rle_0_sqr (s a)) as Q2; unfold Rsqr in Q2;
        apply Rsqr_0_uniq; unfold Rsqr; lra].
      apply (barrier (fun t => s t * s t) (fun t => s' t * s t + s t * s' t) a0 1); [| | |exact Ha].
      - intros t Ht. apply is_derive_lim. apply (is_derive_mult s s t (s' t) (s' t)).
        + apply is_derive_lim, s_der, Ht.
        + apply is_derive_lim, s_der, Ht.
        + intros; apply Rmult_comm.
      - rewrite Es. lra.
      - intros t Ht _. rewrite (s'_eq t Ht). cbv zeta. assert (P0 : 0 < t) by (unfold a0 in *; lra).
        rewrite (EO t P0). set (w := co_w c _).
        replace (_ + _) with (- (3 * (s t * s t / t))) by (field; lra).
        rewrite <- Ropp_0. apply Ropp_le_contravar. apply Rmult_le_pos; [lra|].
        unfold Rdiv. apply Rmult_le_pos; [apply Rle_0_sqr|apply Rlt_le, Rinv_0_lt_compat; exact P0]. }
    intros a Ha. destruct (Rle_lt_or_eq_dec _ _ (proj1 Ha)) as [L|Q]; [|subst; exact Ed].
    destruct (mvt (fun t => d t / t) (fun t => s t / t ^ 2) a0 a L) as [x [Hx E]].
    { intros; apply ratio_der; lra. }
    cbv beta in E. rewrite (S0 x) in E by lra. rewrite Ed in E.
    assert (P0 : 0 < a) by (unfold a0 in *; lra).
    assert (E2 : d a / a = 1).
    { replace (a0 / a0) with 1 in E by (unfold a0; field; lra). replace (0 / x ^ 2 * (a - a0)) with 0 in E by (unfold Rdiv; ring). lra. }
    apply Rmult_eq_reg_r with (/ a); [|apply Rinv_neq_0_compat; lra].
    unfold Rdiv in E2. rewrite E2. field. lra.
  Qed.

  (** The accumulated growth is at least the growth itself, and increases. *)
  Lemma d_cont a : a0 <= a <= 1 -> continuous (fun t => d t / t) a.
  Proof.
    intros Ha. apply continuity_pt_filterlim. eapply lim_cont. apply ratio_der, Ha.
  Qed.

  Lemma integrable a b : a0 <= a -> a <= b -> b <= 1 -> ex_RInt (fun t => d t / t) a b.
  Proof.
    intros. apply (ex_RInt_continuous (V := R_CompleteNormedModule)). intros z Hz.
    rewrite Rmin_left, Rmax_right in Hz by lra. apply d_cont. lra.
  Qed.

  Lemma accumulated_ge a : a0 <= a <= 1 -> d a <= accumulated_growth d a.
  Proof.
    intros Ha. unfold accumulated_growth. fold a0. pose proof a_init_pos as P00. fold a0 in P00.
    assert (L : (a - a0) * (d a / a) <= RInt (fun t => d t / t) a0 a).
    { apply Rle_trans with (RInt (fun _ => d a / a) a0 a);
        [rewrite (RInt_const (V := R_CompleteNormedModule)); apply Rle_refl|].
      apply RInt_le; [lra|apply ex_RInt_const|apply integrable; lra|].
      intros x Hx. apply ratio_decreasing; lra. }
    assert (M : a0 * (d a / a) <= d a0).
    { replace (d a0) with (a0 * (d a0 / a0)) by (field; lra).
      apply Rmult_le_compat_l; [lra|]. apply ratio_decreasing; lra. }
    assert (E : d a = (a - a0) * (d a / a) + a0 * (d a / a)) by (field; lra). lra.
  Qed.

  Lemma accumulated_incr a b : a0 <= a -> a < b -> b <= 1 ->
    accumulated_growth d a < accumulated_growth d b.
  Proof.
    intros Ha Hab Hb. unfold accumulated_growth. fold a0. pose proof a_init_pos as P00. fold a0 in P00.
    assert (E : RInt (fun t => d t / t) a0 b
                = RInt (fun t => d t / t) a0 a + RInt (fun t => d t / t) a b).
    { symmetry. apply (RInt_Chasles (V := R_CompleteNormedModule)); apply integrable; lra. }
    rewrite E.
    assert (0 < RInt (fun t => d t / t) a b); [|lra].
    apply RInt_gt_0; [exact Hab| |].
    - intros x Hx. apply Rdiv_lt_0_compat; [apply growth_pos|]; lra.
    - intros x Hx. apply d_cont. lra.
  Qed.

  Lemma eds_accumulated : co_Om0 c + co_Onu0 c = 1 ->
    forall a, a0 <= a <= 1 -> accumulated_growth d a = a.
  Proof.
    intros E a Ha. unfold accumulated_growth. fold a0. pose proof a_init_pos as P00. fold a0 in P00.
    rewrite (RInt_ext (V := R_CompleteNormedModule) _ (fun _ => 1)).
    - rewrite (RInt_const (V := R_CompleteNormedModule)). rewrite (eds_growth E a0) by lra.
      unfold scal; cbn. unfold mult; cbn. lra.
    - intros x Hx. rewrite Rmin_left, Rmax_right in Hx by lra.
      rewrite (eds_growth E x) by lra. apply Rinv_r. lra.
  Qed.
End Growth.
