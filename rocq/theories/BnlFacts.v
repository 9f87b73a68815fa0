(** Proofs about bnl.py. *)
From Coq Require Import ZArith Sorted.
From Verif Require Import Base Quad Interp Spec BaseFacts QuadFacts InterpFacts BnlModel BnlSpec IaFacts.
Open Scope string_scope.
Open Scope R_scope.

(** ** Box *)
Lemma clamp_in v e : fst e <= snd e -> fst e <= clamp1 v e <= snd e.
Proof. intro H. unfold clamp1. destruct (Rlt_dec (snd e) v), (Rlt_dec v (fst e)); lra. Qed.
Lemma clamp_id v e : fst e <= v <= snd e -> clamp1 v e = v.
Proof. intro H. unfold clamp1. destruct (Rlt_dec (snd e) v), (Rlt_dec v (fst e)); lra. Qed.
Lemma clamp_mono v w e : fst e <= snd e -> v <= w -> clamp1 v e <= clamp1 w e.
Proof.
  intros H L. unfold clamp1. destruct (Rlt_dec (snd e) v), (Rlt_dec v (fst e)), (Rlt_dec (snd e) w), (Rlt_dec w (fst e)); lra.
Qed.
Lemma six (v : list R) : List.length v = 6%nat -> exists a b c d e f, v = [a; b; c; d; e; f].
Proof.
  intro H. do 6 (destruct v as [|? v]; [discriminate|]). destruct v; [|discriminate]. repeat eexists.
Qed.
Lemma test_cosmo_six a b c d e f : exists out, test_cosmo [a; b; c; d; e; f] = Ok out /\ in_box out.
Proof.
  unfold test_cosmo, cparam_range. cbn [List.length Nat.eqb combine map fst snd].
  eexists. split; [reflexivity|]. unfold in_box. do 6 eexists. split; [reflexivity|].
  unfold clamp1. cbn [fst snd].
  repeat match goal with |- context [Rlt_dec ?x ?y] => destruct (Rlt_dec x y) end; lra.
Qed.
Lemma test_cosmo_id a b c d e f : in_box [a; b; c; d; e; f] -> test_cosmo [a; b; c; d; e; f] = Ok [a; b; c; d; e; f].
Proof.
  intros (a' & b' & c' & d' & e' & f' & E & H). injection E as <- <- <- <- <- <-.
  unfold test_cosmo, cparam_range. cbn [List.length Nat.eqb combine map fst snd].
  rewrite !clamp_id by (cbn [fst snd]; lra). reflexivity.
Qed.
Lemma test_cosmo_ok v : List.length v = 6%nat ->
  exists out, test_cosmo v = Ok out /\ in_box out /\ test_cosmo out = Ok out /\ (in_box v -> out = v).
Proof.
  intro H. destruct (six v H) as (a & b & c & d & e & f & ->).
  destruct (test_cosmo_six a b c d e f) as (out & T & B). exists out. split; [exact T|]. split; [exact B|]. split.
  - destruct B as (a' & b' & c' & d' & e' & f' & -> & B). apply test_cosmo_id. repeat eexists; lra.
  - intro V. rewrite (test_cosmo_id _ _ _ _ _ _ V) in T. now injection T.
Qed.
Lemma test_cosmo_mono v w a b : test_cosmo v = Ok a -> test_cosmo w = Ok b ->
  forall i, nth i v 0 <= nth i w 0 -> nth i a 0 <= nth i b 0.
Proof.
  unfold test_cosmo. destruct (Nat.eqb_spec (List.length v) 6) as [V|]; [|discriminate].
  destruct (Nat.eqb_spec (List.length w) 6) as [W|]; [|discriminate].
  destruct (six v V) as (? & ? & ? & ? & ? & ? & ->), (six w W) as (? & ? & ? & ? & ? & ? & ->).
  unfold cparam_range. cbn [combine map fst snd]. intros A B. injection A as <-. injection B as <-.
  intros i H. do 6 (destruct i as [|i]; [cbn [nth] in *; apply clamp_mono; cbn [fst snd]; lra|]).
  cbn [nth] in *. destruct i; lra.
Qed.
Lemma test_cosmo_len v : List.length v <> 6%nat -> test_cosmo v = Err "ValueError".
Proof. intro H. unfold test_cosmo. now apply Nat.eqb_neq in H as ->. Qed.

(** ** Emulator *)
Lemma emulator_box s8 c vs v : emulator s8 c = Ok vs -> In v vs -> in_box v.
Proof.
  assert (P : forall l w, test_cosmo (cparam c l) = Ok w -> in_box w).
  { intros l w H. unfold cparam in H. destruct (test_cosmo_six (ombh2 c) (omch2 c) (b_ol c - 64 / 100000) l (b_ns c) (b_w0 c)) as (o & T & B).
    rewrite T in H. now injection H as <-. }
  unfold emulator. destruct (b_As c) as [A|].
  - destruct (test_cosmo _) eqn:T; cbn [bind]; [|discriminate]. intro H. injection H as <-.
    intros [<-|[]]. eapply P, T.
  - destruct (b_sigma8 c) as [s|]; [|discriminate].
    destruct (test_cosmo (cparam c (ln (A_s_init * 10 ^ 10)))) eqn:T; cbn [bind]; [|discriminate].
    match goal with |- context [test_cosmo ?e] => destruct (test_cosmo e) eqn:T2 end; cbn [bind]; [|discriminate].
    intro H. injection H as <-. intros [<-|[<-|[]]]; [eapply P, T|eapply P, T2].
Qed.
Lemma emulator_total s8 c : (exists vs, emulator s8 c = Ok vs) <-> (b_As c <> None \/ b_sigma8 c <> None).
Proof.
  assert (P : forall l, exists w, test_cosmo (cparam c l) = Ok w).
  { intro l. destruct (test_cosmo_six (ombh2 c) (omch2 c) (b_ol c - 64 / 100000) l (b_ns c) (b_w0 c)) as (o & T & _). eauto. }
  unfold emulator. destruct (b_As c) as [A|].
  - destruct (P (ln (A * 10 ^ 10))) as [w ->]. cbn [bind]. split; [left; discriminate|eauto].
  - destruct (b_sigma8 c) as [s|].
    + destruct (P (ln (A_s_init * 10 ^ 10))) as [w ->]. cbn [bind].
      match goal with |- context [test_cosmo (cparam c ?e)] => destruct (P e) as [w2 ->] end. cbn [bind].
      split; [right; discriminate|eauto].
    + split; [intros [? H]; discriminate|intros [H|H]; congruence].
Qed.
Lemma emulator_neither s8 c : b_As c = None -> b_sigma8 c = None -> emulator s8 c = Err "ValueError".
Proof. intros A B. unfold emulator. now rewrite A, B. Qed.
(** A_s wins over sigma_8, and a request in the box is used as it is. *)
Lemma emulator_As s8 c A : b_As c = Some A -> in_box (cparam c (ln (A * 10 ^ 10))) ->
  emulator s8 c = Ok [[b_ob c * b_h0 c ^ 2; b_oc c * b_h0 c ^ 2; b_ol c - 64 / 100000; ln (A * 10 ^ 10); b_ns c; b_w0 c]]
  \/ b_h0 c < 0.
Proof.
  intros E B. destruct (Rlt_dec (b_h0 c) 0) as [|N]; [now right|left].
  unfold emulator. rewrite E. unfold cparam in *. rewrite test_cosmo_id by exact B. cbn [bind].
  assert (F : forall x, 0 <= x -> fpow x 2 = x ^ 2).
  { intros x Hx. destruct (Req_dec x 0) as [->|Z].
    - rewrite fpow_zero by lra. simpl. ring.
    - rewrite fpow_pos by lra. replace 2 with (INR 2) at 1 by (simpl; lra). now rewrite Rpower_pow by lra. }
  unfold ombh2, omch2. rewrite !F by lra. reflexivity.
Qed.

Lemma ln_init : 2.4752 <= ln (A_s_init * 10 ^ 10) <= 3.7128.
Proof.
  replace (A_s_init * 10 ^ 10) with 21 by (unfold A_s_init; field).
  assert (X : forall x, exp x = exp (x / 16) ^ 16).
  { intro x. rewrite <- Rpower_pow by apply exp_pos. unfold Rpower. rewrite ln_exp. f_equal. simpl. field. }
  split.
  - rewrite <- (ln_exp 2.4752). apply Rlt_le, ln_increasing; [apply exp_pos|]. rewrite X.
    assert (B : exp (2.4752 / 16) <= 1.2).
    { pose proof (exp_ineq1 (- (2.4752 / 16)) ltac:(lra)) as H. rewrite exp_Ropp in H.
      pose proof (exp_pos (2.4752 / 16)) as P.
      apply Rmult_lt_compat_l with (r := exp (2.4752 / 16)) in H; [|exact P].
      rewrite Rinv_r in H by lra. nra. }
    apply Rle_lt_trans with (1.2 ^ 16); [|lra]. apply pow_incr. split; [left; apply exp_pos|exact B].
  - rewrite <- (ln_exp 3.7128). apply Rlt_le, ln_increasing; [lra|]. rewrite X.
    apply Rlt_le_trans with (1.23 ^ 16); [lra|]. apply pow_incr. split; [lra|].
    pose proof (exp_ineq1 (3.7128 / 16) ltac:(lra)). lra.
Qed.
(** The requested sigma_8 is reached unless the corresponding A_s is outside the box. *)
Lemma emulator_sigma8 sigma8 c s : sigma8_scales sigma8 -> b_As c = None -> b_sigma8 c = Some s -> 0 < s ->
  (forall d, 2.4752 <= d <= 3.7128 -> in_box (cparam c d)) ->
  exists v0 v, emulator sigma8 c = Ok [v0; v] /\
    (2.4752 <= ln (A_s_init * 10 ^ 10) + 2 * ln (s / sigma8 v0) <= 3.7128 -> sigma8 v = s).
Proof.
  intros S8 HA HS Hs B. unfold emulator. rewrite HA, HS.
  pose proof ln_init as LI. set (l0 := ln (A_s_init * 10 ^ 10)) in *.
  pose proof (B l0 LI) as B0. unfold cparam in *. rewrite test_cosmo_id by exact B0. cbn [bind].
  set (v0 := [ombh2 c; omch2 c; b_ol c - 64 / 100000; l0; b_ns c; b_w0 c]) in *.
  destruct (S8 (ombh2 c) (omch2 c) (b_ol c - 64 / 100000) l0 l0 (b_ns c) (b_w0 c)) as [P _]. fold v0 in P.
  assert (F : forall x, 0 < x -> fpow x 2 = x ^ 2).
  { intros x Hx. rewrite fpow_pos by lra. replace 2 with (INR 2) at 1 by (simpl; lra). now rewrite Rpower_pow by lra. }
  rewrite !F by assumption.
  assert (Ai : 0 < A_s_init) by (unfold A_s_init; lra).
  assert (L : ln (A_s_init * (s ^ 2 / sigma8 v0 ^ 2) * 10 ^ 10) = l0 + 2 * ln (s / sigma8 v0)).
  { assert (Q : 0 < s / sigma8 v0) by (apply Rdiv_lt_0_compat; assumption).
    replace (A_s_init * (s ^ 2 / sigma8 v0 ^ 2) * 10 ^ 10) with (A_s_init * 10 ^ 10 * ((s / sigma8 v0) * (s / sigma8 v0)))
      by (field; lra).
    rewrite ln_mult; [|apply Rmult_lt_0_compat; lra|now apply Rmult_lt_0_compat].
    rewrite (ln_mult (s / sigma8 v0)) by assumption. unfold l0. ring. }
  rewrite L.
  destruct (test_cosmo_six (ombh2 c) (omch2 c) (b_ol c - 64 / 100000) (l0 + 2 * ln (s / sigma8 v0)) (b_ns c) (b_w0 c)) as (v & T & _).
  rewrite T. cbn [bind]. exists v0, v. split; [reflexivity|]. intro H.
  rewrite (test_cosmo_id _ _ _ _ _ _ (B _ H)) in T. injection T as <-.
  destruct (S8 (ombh2 c) (omch2 c) (b_ol c - 64 / 100000) l0 (l0 + 2 * ln (s / sigma8 v0)) (b_ns c) (b_w0 c)) as [_ ->].
  fold v0. replace ((l0 + 2 * ln (s / sigma8 v0) - l0) / 2) with (ln (s / sigma8 v0)) by field.
  rewrite exp_ln by (apply Rdiv_lt_0_compat; assumption). field. lra.
Qed.

(** ** Truncations *)
Lemma logistic x : 0 < 1 / (1 + exp x) < 1.
Proof.
  pose proof (exp_pos x). split; [apply Rdiv_lt_0_compat; lra|].
  apply (Rmult_lt_reg_r (1 + exp x)); [lra|]. unfold Rdiv. rewrite Rmult_assoc, Rinv_l by lra. lra.
Qed.
Lemma trunc_sum k kt : low_k_truncation k kt + high_k_truncation k kt = 1.
Proof.
  unfold low_k_truncation, high_k_truncation. rewrite exp_Ropp. set (e := exp (10 * (log10 k - log10 kt))).
  assert (0 < e) by apply exp_pos. field. lra.
Qed.
Lemma logistic_mono x y : x < y -> 1 / (1 + exp y) < 1 / (1 + exp x).
Proof.
  intro H. pose proof (exp_pos x). pose proof (exp_increasing x y H).
  unfold Rdiv. rewrite !Rmult_1_l. apply Rinv_lt_contravar; [|lra]. apply Rmult_lt_0_compat; lra.
Qed.
Lemma trunc_mono k k' kt : 0 < k -> k < k' ->
  low_k_truncation k kt < low_k_truncation k' kt /\ high_k_truncation k' kt < high_k_truncation k kt.
Proof.
  intros H L. pose proof (log10_lt k k' H L). split; apply logistic_mono; lra.
Qed.
Lemma trunc_half k : low_k_truncation k k = 1 / 2 /\ high_k_truncation k k = 1 / 2.
Proof.
  unfold low_k_truncation, high_k_truncation.
  replace (- (10 * (log10 k - log10 k))) with 0 by ring. replace (10 * (log10 k - log10 k)) with 0 by ring.
  rewrite exp_0. split; lra.
Qed.
(** One decade away the truncation is complete to 1e-4. *)
Lemma exp_10 : 10000 < exp 10.
Proof.
  replace 10 with (INR 20 * (1 / 2)) by (simpl; lra). 
  assert (X : exp (INR 20 * (1 / 2)) = exp (1 / 2) ^ 20).
  { rewrite <- Rpower_pow by apply exp_pos. unfold Rpower. now rewrite ln_exp. }
  rewrite X.
  assert (B : 1.6 <= exp (1 / 2)).
  { replace (1 / 2) with (1 / 8 + 1 / 8 + (1 / 8 + 1 / 8)) by lra. rewrite !exp_plus.
    pose proof (exp_ineq1 (1 / 8) ltac:(lra)) as E8.
    assert (E4 : 1.265625 <= exp (1 / 8) * exp (1 / 8)) by nra. nra. }
  apply Rlt_le_trans with (1.6 ^ 20); [lra|]. apply pow_incr. lra.
Qed.
Lemma trunc_decade k kt : 0 < k -> 10 * k <= kt -> low_k_truncation k kt < 1 / 10000 /\ 1 - 1 / 10000 < high_k_truncation k kt.
Proof.
  intros H L. assert (D : log10 k + 1 <= log10 kt).
  { replace (log10 k + 1) with (log10 (10 * k)).
    - apply log10_le; lra.
    - rewrite log10_mult by lra. unfold log10, ten. field. apply Rgt_not_eq. rewrite <- ln_1. apply ln_increasing; lra. }
  assert (A : low_k_truncation k kt < 1 / 10000).
  { unfold low_k_truncation.
    assert (E : exp 10 <= exp (- (10 * (log10 k - log10 kt)))).
    { destruct (Rle_lt_or_eq_dec 10 (- (10 * (log10 k - log10 kt))) ltac:(lra)) as [Z|Z];
        [left; now apply exp_increasing|rewrite <- Z; lra]. }
    pose proof exp_10. unfold Rdiv. rewrite !Rmult_1_l. apply Rinv_lt_contravar; lra. }
  pose proof (trunc_sum k kt). lra.
Qed.

(** ** Spheres *)
Lemma cube_root x : 0 < x -> fpow x (1 / 3) ^ 3 = x.
Proof.
  intro H. rewrite fpow_pos by exact H. rewrite <- Rpower_pow by apply exp_pos.
  rewrite Rpower_mult. replace (1 / 3 * INR 3) with 1 by (simpl; field). now apply Rpower_1.
Qed.
Lemma fpow_3 x : 0 < x -> fpow x 3 = x ^ 3.
Proof. intro H. rewrite fpow_pos by exact H. replace 3 with (INR 3) at 1 by (simpl; lra). now apply Rpower_pow. Qed.
Lemma sphere_min Om : 0 < Om ->
  4 / 3 * PI * rmin ^ 3 * (277536627000 * Om) = fst (minimum_halo_mass Om) /\
  snd (minimum_halo_mass Om) * rmin = 2 * PI /\ 0 < rmin /\
  fst (minimum_halo_mass Om) = (277536627000 * Om) * 1000 ^ 3 / 2048 ^ 3 * 200.
Proof.
  intro H. pose proof PI_RGT_0.
  assert (V : vmin = 1000 ^ 3 * 200 / 2048 ^ 3).
  { unfold vmin, Lbox, npart, np_min. rewrite !fpow_3 by lra. reflexivity. }
  assert (VP : 0 < vmin) by (rewrite V; lra).
  assert (P : 0 < (3 * vmin) / (4 * PI)) by (apply Rdiv_lt_0_compat; lra).
  assert (RP : 0 < rmin) by (unfold rmin; apply fpow_gt0; exact P).
  assert (R3 : rmin ^ 3 = (3 * vmin) / (4 * PI)) by (unfold rmin; now apply cube_root).
  split; [|split; [|split; [exact RP|]]].
  - rewrite R3, V. unfold minimum_halo_mass, rhom, Lbox, npart, np_min. cbn [fst]. rewrite !fpow_3 by lra. field. lra.
  - unfold minimum_halo_mass. cbn [snd]. field. lra.
  - unfold minimum_halo_mass, rhom, Lbox, npart, np_min. cbn [fst]. rewrite !fpow_3 by lra. field.
Qed.
Lemma sphere_vir Om m : 0 < Om -> 0 < m ->
  4 / 3 * PI * bnl_rvir Om m ^ 3 * (200 * (277536627000 * Om)) = m /\ 0 < bnl_rvir Om m.
Proof.
  intros H1 H2. pose proof PI_RGT_0.
  assert (P : 0 < (3 * m) / (4 * PI * 200 * rhom Om)).
  { apply Rdiv_lt_0_compat; [lra|]. unfold rhom.
    pose proof (Rmult_lt_0_compat _ _ PI_RGT_0 H1). nra. }
  split; [|unfold bnl_rvir; now apply fpow_gt0].
  unfold bnl_rvir. rewrite cube_root by exact P. unfold rhom. field. lra.
Qed.
