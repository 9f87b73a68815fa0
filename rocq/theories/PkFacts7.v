(** Truncation wavenumbers in the spectra; hmcode. *)
From Coq Require Import FunctionalExtensionality.
From Coquelicot Require Import Coquelicot.
From Verif Require Import Base Spec Quad Interp HodModel HodSpec Dewiggle PkModel PkSpec BaseFacts QuadFacts
  InterpFacts NumFacts HodFacts HodFacts2 PkFacts PkFacts2 PkFacts3 PkFacts4 PkFacts5 PkFacts6.
Open Scope R_scope.

Lemma damp1 t : 0 < t -> damping (trunc1 (Some t)) /\ rising (trunc1 (Some t)).
Proof.
  intros Ht. split; [intros k _; pose proof (trunc1_range t k Ht); lra|].
  split; [apply trunc1_zero, Ht|]. intros; apply trunc1_mono; assumption.
Qed.
Lemma damp2 t : damping (trunc2 (Some t)) /\ falling (trunc2 (Some t)).
Proof.
  split; [intros k _; pose proof (trunc2_range t k); lra|].
  split; [apply trunc2_zero|]. intros; apply trunc2_mono; assumption.
Qed.
Lemma damp1_ia t : 0 < t -> damping (trunc1_ia (Some t)) /\ rising (trunc1_ia (Some t)).
Proof.
  intros Ht. pose proof (trunc_ia_sum t) as Hs.
  split; [intros k _; pose proof (trunc2_ia_range t k); specialize (Hs k); lra|].
  split; [pose proof (trunc2_ia_zero t Ht); specialize (Hs 0); lra|].
  intros k k' H0 H1. pose proof (trunc2_ia_mono t k k' Ht H0 H1). pose proof (Hs k). pose proof (Hs k'). lra.
Qed.
Lemma damp2_ia t : 0 < t -> damping (trunc2_ia (Some t)) /\ falling (trunc2_ia (Some t)).
Proof.
  intros Ht. split; [intros k _; pose proof (trunc2_ia_range t k); lra|].
  split; [apply trunc2_ia_zero, Ht|]. intros; apply trunc2_ia_mono; assumption.
Qed.
Lemma damp1_mead s8 : 0 < s8 -> damping (trunc1_mead s8) /\ rising (trunc1_mead s8).
Proof.
  intros H. split; [intros k _; pose proof (mead_1h_range s8 k H); lra|].
  split; [apply mead_1h_zero, H|]. intros; apply mead_1h_mono; assumption.
Qed.
Lemma damp2_mead s8 : 0 < s8 <= 37 / 10 -> damping (trunc2_mead s8) /\ falling (trunc2_mead s8).
Proof.
  intros H. split; [intros k _; apply mead_2h_range, H|].
  split; [apply mead_2h_zero, H|]. intros; apply mead_2h_mono; try assumption. apply H.
Qed.

(** Requests differing only in truncation wavenumbers share every intermediate result. *)
Ltac same_k W a S :=
  change (pk_lin (W a S)) with (pk_lin S); change (s_mode (W a S)) with (s_mode S);
  change (s_poisson (W a S)) with (s_poisson S); change (s_mass (W a S)) with (s_mass S);
  change (beta_nl (W a S)) with (beta_nl S); change (peff_arr (W a S)) with (peff_arr S);
  change (I_NL (W a S)) with (I_NL S); change (gal_profile (W a S)) with (gal_profile S);
  change (matter_profile_2h (W a S)) with (matter_profile_2h S);
  change (gal_align (W a S)) with (gal_align S); change (sat_align (W a S)) with (sat_align S);
  change (cen_align (W a S)) with (cen_align S); change (cen_profile (W a S)) with (cen_profile S);
  change (sat_profile (W a S)) with (sat_profile S); change (profile_xm (W a S)) with (profile_xm S);
  change (profile_mm (W a S)) with (profile_mm S);
  change (one_halo (W a S)) with (one_halo S); change (Ic_term (W a S)) with (Ic_term S);
  change (Is_term (W a S)) with (Is_term S); change (Im_term (W a S)) with (Im_term S);
  change (Ic_align (W a S)) with (Ic_align S); change (Is_align (W a S)) with (Is_align S);
  change (sF_c (W a S)) with (sF_c S); change (amp_2h (W a S)) with (amp_2h S);
  change (amp_2h_II (W a S)) with (amp_2h_II S).

Ltac use_ok := repeat (cbn [bind]; match goal with [H : ?x = Ok _ |- context [?x]] => rewrite H end); cbn [bind].

Lemma respond_none S r : s_response S = false -> respond S r = Ok r.
Proof. intros H. unfold respond. rewrite H. reflexivity. Qed.

Lemma k1_damps x S r t : s_response S = false -> is_alignment x = false ->
  power_spectrum x (with_k1 (Some t) S) = Ok r ->
  exists r0, power_spectrum x (with_k1 None S) = Ok r0 /\ damps_1h S (trunc1 (Some t)) r0 r.
Proof.
  intros Hr Hx. destruct x; try discriminate; simpl; unfold power_spectrum_gg, power_spectrum_gm;
    same_k with_k1 (Some t) S; same_k with_k1 (@None R) S; intros H; repeat inv_bind H; use_ok;
    rewrite respond_none in * by exact Hr; inv_ok H; eexists; (split; [reflexivity|]);
    intros b z k; cbn [pk_1h pk_2h]; unfold t1, t2; cbn [s_k1 s_k2 s_kvec with_k1];
    (split; [change (trunc1 None (s_kvec S k)) with 1; ring|reflexivity]).
Qed.

Lemma k1_damps_mm S r t : s_response S = false -> s_mode S <> Hmcode ->
  power_spectrum_mm (with_k1 (Some t) S) = Ok r ->
  exists r0, power_spectrum_mm (with_k1 None S) = Ok r0 /\ damps_1h S (trunc1 (Some t)) r0 r.
Proof.
  intros Hr Hm. unfold power_spectrum_mm.
  change (s_response (with_k1 (Some t) S)) with (s_response S). change (s_response (with_k1 None S)) with (s_response S).
  rewrite Hr. unfold power_spectrum_mm_raw.
  same_k with_k1 (Some t) S; same_k with_k1 (@None R) S; intros H. inv_bind H. use_ok.
  destruct (s_mode S); try congruence; repeat inv_bind H; use_ok; inv_ok H; eexists; (split; [reflexivity|]);
    intros b z k; cbn [pk_1h pk_2h]; unfold t1, t2; cbn [s_k1 s_k2 s_kvec with_k1];
    (split; [change (trunc1 None (s_kvec S k)) with 1; ring|reflexivity]).
Qed.

Lemma k2_damps x S r t : s_response S = false -> is_alignment x = false -> s_mode S <> Bnl ->
  power_spectrum x (with_k2 (Some t) S) = Ok r ->
  exists r0, power_spectrum x (with_k2 None S) = Ok r0 /\ damps_2h S (trunc2 (Some t)) r0 r.
Proof.
  intros Hr Hx Hm. assert (Hb : is_bnl (s_mode S) = false) by (destruct (s_mode S); try congruence; reflexivity).
  destruct x; try discriminate; simpl; unfold power_spectrum_gg, power_spectrum_gm;
    same_k with_k2 (Some t) S; same_k with_k2 (@None R) S; rewrite Hb; intros H; repeat inv_bind H; use_ok;
    cbn [bind] in H;
    rewrite respond_none in * by exact Hr; inv_ok H; eexists; (split; [reflexivity|]);
    intros b z k; cbn [pk_1h pk_2h]; unfold t1, t2; cbn [s_k1 s_k2 s_kvec with_k2];
    (split; [change (trunc2 None (s_kvec S k)) with 1; ring|reflexivity]).
Qed.

Lemma k2_damps_mm S r t : s_response S = false -> plain_mode (s_mode S) ->
  power_spectrum_mm (with_k2 (Some t) S) = Ok r ->
  exists r0, power_spectrum_mm (with_k2 None S) = Ok r0 /\ damps_2h S (trunc2 (Some t)) r0 r.
Proof.
  intros Hr Hm. unfold power_spectrum_mm.
  change (s_response (with_k2 (Some t) S)) with (s_response S). change (s_response (with_k2 None S)) with (s_response S).
  rewrite Hr. unfold power_spectrum_mm_raw.
  same_k with_k2 (Some t) S; same_k with_k2 (@None R) S; intros H. inv_bind H. use_ok.
  destruct Hm as [Hm|Hm]; rewrite Hm in *; inv_ok H; eexists; (split; [reflexivity|]);
    intros b z k; cbn [pk_1h pk_2h]; unfold t1, t2; cbn [s_k1 s_k2 s_kvec with_k2];
    (split; [change (trunc2 None (s_kvec S k)) with 1; ring|reflexivity]).
Qed.

Lemma k1_ia_damps x S r t : s_response S = false -> is_alignment x = true ->
  power_spectrum x (with_k1_ia (Some t) S) = Ok r ->
  exists r0, power_spectrum x (with_k1_ia None S) = Ok r0 /\ damps_1h S (trunc1_ia (Some t)) r0 r.
Proof.
  intros Hr Hx. destruct x; try discriminate; simpl;
    unfold power_spectrum_mi, power_spectrum_ii, power_spectrum_gi; cbv zeta;
    same_k with_k1_ia (Some t) S; same_k with_k1_ia (@None R) S; intros H;
    destruct (s_mode S); repeat inv_bind H; use_ok;
    rewrite respond_none in * by exact Hr; inv_ok H; eexists; (split; [reflexivity|]);
    intros b z k; cbn [pk_1h pk_2h]; unfold t1i, t2i; cbn [s_k1_ia s_k2_ia s_kvec with_k1_ia];
    (split; [change (trunc1_ia None (s_kvec S k)) with 1; ring|reflexivity]).
Qed.

Lemma k2_ia_damps x S r t : s_response S = false -> is_alignment x = true -> s_mode S <> Bnl ->
  power_spectrum x (with_k2_ia (Some t) S) = Ok r ->
  exists r0, power_spectrum x (with_k2_ia None S) = Ok r0 /\ damps_2h S (trunc2_ia (Some t)) r0 r.
Proof.
  intros Hr Hx Hb. destruct x; try discriminate; simpl;
    unfold power_spectrum_mi, power_spectrum_ii, power_spectrum_gi; cbv zeta;
    same_k with_k2_ia (Some t) S; same_k with_k2_ia (@None R) S; intros H;
    destruct (s_mode S); try congruence; repeat inv_bind H; use_ok;
    rewrite respond_none in * by exact Hr; inv_ok H; eexists; (split; [reflexivity|]);
    intros b z k; cbn [pk_1h pk_2h]; unfold t1i, t2i; cbn [s_k1_ia s_k2_ia s_kvec with_k2_ia];
    (split; [change (trunc2_ia None (s_kvec S k)) with 1; ring|reflexivity]).
Qed.

(** The value requested for the two-halo truncation has no effect. *)
Ltac same_t2 t t' S :=
  same_k with_k2 (Some t) S; same_k with_k2 (Some t') S;
  change (t1 (with_k2 (Some t) S)) with (t1 S); change (t1 (with_k2 (Some t') S)) with (t1 S);
  change (t1i (with_k2 (Some t) S)) with (t1i S); change (t1i (with_k2 (Some t') S)) with (t1i S);
  change (t2i (with_k2 (Some t) S)) with (t2i S); change (t2i (with_k2 (Some t') S)) with (t2i S);
  change (t2 (with_k2 (Some t') S)) with (t2 (with_k2 (Some t) S)).

Lemma k2_inert_raw S t t' : power_spectrum_mm_raw (with_k2 (Some t) S) = power_spectrum_mm_raw (with_k2 (Some t') S).
Proof.
  unfold power_spectrum_mm_raw. same_t2 t t' S.
  change (s_ingr (with_k2 (Some t) S)) with (s_ingr S). change (s_ingr (with_k2 (Some t') S)) with (s_ingr S).
  change (s_sigma8z (with_k2 (Some t) S)) with (s_sigma8z S). change (s_sigma8z (with_k2 (Some t') S)) with (s_sigma8z S).
  change (s_neff (with_k2 (Some t) S)) with (s_neff S). change (s_neff (with_k2 (Some t') S)) with (s_neff S).
  change (s_kvec (with_k2 (Some t) S)) with (s_kvec S). change (s_kvec (with_k2 (Some t') S)) with (s_kvec S).
  reflexivity.
Qed.

Lemma k2_inert_respond S t t' r : respond (with_k2 (Some t) S) r = respond (with_k2 (Some t') S) r.
Proof.
  unfold respond. rewrite (k2_inert_raw S t t').
  change (s_response (with_k2 (Some t) S)) with (s_response S). change (s_response (with_k2 (Some t') S)) with (s_response S).
  change (pk_nl (with_k2 (Some t) S)) with (pk_nl S). change (pk_nl (with_k2 (Some t') S)) with (pk_nl S).
  reflexivity.
Qed.

Lemma k2_inert S t t' : power_spectrum_mm (with_k2 (Some t) S) = power_spectrum_mm (with_k2 (Some t') S) /\
  forall x, power_spectrum x (with_k2 (Some t) S) = power_spectrum x (with_k2 (Some t') S).
Proof.
  split.
  - unfold power_spectrum_mm. rewrite (k2_inert_raw S t t').
    change (s_response (with_k2 (Some t) S)) with (s_response S). change (s_response (with_k2 (Some t') S)) with (s_response S).
    change (pk_nl (with_k2 (Some t) S)) with (pk_nl S). change (pk_nl (with_k2 (Some t') S)) with (pk_nl S).
    reflexivity.
  - assert (R : respond (with_k2 (Some t) S) = respond (with_k2 (Some t') S))
      by (apply functional_extensionality; intros r; apply k2_inert_respond).
    intros x; destruct x; cbn [power_spectrum];
      unfold power_spectrum_gg, power_spectrum_gm, power_spectrum_mi, power_spectrum_ii, power_spectrum_gi;
      rewrite R; same_t2 t t' S; reflexivity.
Qed.

(** ** hmcode *)
Lemma mm_hmcode S r : s_mode S = Hmcode -> s_response S = false -> power_spectrum_mm S = Ok r ->
  (s_ingr S = Mead2020Fb \/ s_ingr S = Mead2020) /\
  exists pl, pk_lin S = Ok pl /\ forall b z k,
    pk_2h r b z k = pl z k * trunc2_mead (s_sigma8z S z) (s_kvec S k) /\
    pk_1h r b z k = one_halo S (profile_mm S) (profile_mm S) b z k * trunc1_mead (s_sigma8z S z) (s_kvec S k) /\
    pk_tot r b z k = transition (s_neff S z) (s_kvec S k) (pk_1h r b z k) (pk_2h r b z k).
Proof.
  intros Hm Hr H. unfold power_spectrum_mm in H. rewrite Hr in H. unfold power_spectrum_mm_raw in H.
  inv_bind H. rewrite Hm in H. destruct (s_ingr S); try discriminate; inv_ok H;
    (split; [tauto|]); exists a; (split; [reflexivity|]); intros; repeat split.
Qed.

Lemma mm_hmcode_total S r b z k : s_mode S = Hmcode -> s_response S = false -> power_spectrum_mm S = Ok r ->
  0 < s_kvec S k -> 0 < pk_1h r b z k -> 0 < pk_2h r b z k ->
  let alpha := 1875 / 1000 * Rpower (1603 / 1000) (s_neff S z) in
  let p1 := pk_1h r b z k in let p2 := pk_2h r b z k in let p := pk_tot r b z k in
  Rpower p alpha = Rpower p1 alpha + Rpower p2 alpha /\
  Rmax p1 p2 <= p /\ (1 <= alpha -> p <= p1 + p2) /\ (alpha <= 1 -> p1 + p2 <= p).
Proof.
  intros Hm Hr H Hk H1 H2 alpha p1 p2 p.
  destruct (mm_hmcode S r Hm Hr H) as (_ & pl & _ & F). destruct (F b z k) as (_ & _ & E).
  assert (Ea : smooth_alpha (s_neff S z) = alpha) by (unfold smooth_alpha; rewrite fpow_pos by lra; reflexivity).
  pose proof (alpha_pos (s_neff S z)) as Ha. rewrite Ea in Ha.
  unfold p. rewrite E. fold p1 p2. split; [|split; [|split]].
  - rewrite transition_form by assumption. rewrite Ea, Rpower_mult.
    replace (1 / alpha * alpha) with 1 by (field; lra). apply Rpower_1.
    pose proof (exp_pos (alpha * ln p1)); pose proof (exp_pos (alpha * ln p2)); unfold Rpower; lra.
  - apply transition_ge; assumption.
  - intros Hge. apply transition_le_sum; try assumption. rewrite Ea. exact Hge.
  - intros Hle. apply transition_ge_sum; try assumption. rewrite Ea. exact Hle.
Qed.

Lemma mm_hmcode_rejected S : s_mode S = Hmcode -> s_response S = false ->
  s_ingr S = Fit \/ s_ingr S = NoIngr -> (exists pl, pk_lin S = Ok pl) ->
  power_spectrum_mm S = Err "UnboundLocalError".
Proof.
  intros Hm Hr Hi [pl E]. unfold power_spectrum_mm. rewrite Hr. unfold power_spectrum_mm_raw. rewrite E, Hm.
  cbn [bind]. destruct Hi as [-> | ->]; reflexivity.
Qed.

(** ** Zero amplitude *)
Lemma zero_amplitude x S r : is_alignment x = true -> power_spectrum x (with_amplitude 0 S) = Ok r ->
  forall b z k, pk_1h r b z k = 0 /\ pk_2h r b z k = 0 /\ pk_tot r b z k = 0.
Proof.
  intros Hx H.
  assert (I : with_amplitude 0 (with_amplitude 0 S) = with_amplitude 0 S).
  { unfold with_amplitude. simpl. f_equal.
    - apply functional_extensionality; intros; ring.
    - do 3 (apply functional_extensionality; intros); ring. }
  assert (G : exists r', power_spectrum x (with_amplitude 0 (with_amplitude 0 S)) = Ok r' /\
    exists c, (c = 0 \/ c = 0 ^ 2) /\ multiple_of c r r').
  { destruct x; try discriminate; simpl in *.
    - destruct (mi_scal 0 _ _ H) as (r' & E & F). exists r'. split; [exact E|]. exists 0. tauto.
    - destruct (ii_scal 0 _ _ H) as (r' & E & F). exists r'. split; [exact E|]. exists (0 ^ 2). tauto.
    - destruct (gi_scal 0 _ _ H) as (r' & E & F). exists r'. split; [exact E|]. exists 0. tauto. }
  destruct G as (r' & E & c & Hc & _ & F). rewrite I, H in E. injection E as <-.
  assert (c = 0) by (destruct Hc; subst c; ring). subst c.
  intros b z k. destruct (F b z k) as (F1 & F2 & F3). lra.
Qed.

(** ** Dewiggled linear power *)
Lemma lin_dewiggled S a : s_plin S = Some a -> s_dewiggle S = true -> (2 <= s_nk S)%nat -> fits S a ->
  exists pl, pk_lin S = Ok pl /\ forall z k, (k < s_nk S)%nat ->
    between (a_val a z k)
            (a_val a z k - pk_wiggle (s_nk S) (s_kvec S) (a_val a z) (s_ns S) (s_lnt S) k) (pl z k).
Proof.
  intros Hp Hd Hk [Hr Hc]. unfold pk_lin, raw_plin, dewiggled. rewrite Hp, Hd, Bool.orb_true_r, guard_passes by exact Hk.
  cbn [bind]. unfold bcast. rewrite Hc, Nat.eqb_refl. cbn [bind a_rows a_cols a_val]. rewrite Hr, !Nat.eqb_refl. cbn [andb].
  eexists. split; [reflexivity|]. intros z k Hlt.
  assert (E : Nat.eqb (s_nk S) 1 = false) by (apply Nat.eqb_neq; lia). cbv beta. rewrite E.
  exact (dewiggle_between (s_nk S) (s_kvec S) (a_val a z) (s_ns S) (s_lnt S) k).
Qed.

Lemma lin_smooth S a (c : nat -> R) : s_plin S = Some a -> s_dewiggle S = true -> (2 <= s_nk S)%nat -> fits S a ->
  (forall k, (k < s_nk S)%nat -> 0 < s_kvec S k) ->
  (forall z k, (k < s_nk S)%nat ->
     a_val a z k = c z * (Rpower (s_kvec S k) (s_ns S) * exp (s_lnt S (ln (s_kvec S k))) ^ 2)) ->
  exists pl, pk_lin S = Ok pl /\ forall z k, (k < s_nk S)%nat -> pl z k = a_val a z k.
Proof.
  intros Hp Hd Hk [Hr Hc] Hpos Hs. unfold pk_lin, raw_plin, dewiggled. rewrite Hp, Hd, Bool.orb_true_r, guard_passes by exact Hk.
  cbn [bind]. unfold bcast. rewrite Hc, Nat.eqb_refl. cbn [bind a_rows a_cols a_val]. rewrite Hr, !Nat.eqb_refl. cbn [andb].
  eexists. split; [reflexivity|]. intros z k Hlt.
  assert (E : Nat.eqb (s_nk S) 1 = false) by (apply Nat.eqb_neq; lia). cbv beta. rewrite E.
  apply (dewiggle_free (s_nk S) (s_kvec S) (a_val a z) (s_ns S) (s_lnt S) (c z)); try assumption; [lia|].
  intros j Hj. rewrite Hs by exact Hj. unfold pk_nowiggle. rewrite fpow_pos by (apply Hpos, Hj). reflexivity.
Qed.

Lemma lin_ratio_bounds S a lo hi : s_plin S = Some a -> s_dewiggle S = true -> (2 <= s_nk S)%nat -> fits S a ->
  (forall k, (k < s_nk S)%nat -> 0 < s_kvec S k) ->
  (forall z k, (k < s_nk S)%nat ->
     let nw := Rpower (s_kvec S k) (s_ns S) * exp (s_lnt S (ln (s_kvec S k))) ^ 2 in
     lo * nw <= a_val a z k <= hi * nw) ->
  exists pl, pk_lin S = Ok pl /\ forall z k, (k < s_nk S)%nat ->
     let nw := Rpower (s_kvec S k) (s_ns S) * exp (s_lnt S (ln (s_kvec S k))) ^ 2 in
     lo * nw <= pl z k <= hi * nw.
Proof.
  intros Hp Hd Hk [Hr Hc] Hpos Hs. unfold pk_lin, raw_plin, dewiggled. rewrite Hp, Hd, Bool.orb_true_r, guard_passes by exact Hk.
  cbn [bind]. unfold bcast. rewrite Hc, Nat.eqb_refl. cbn [bind a_rows a_cols a_val]. rewrite Hr, !Nat.eqb_refl. cbn [andb].
  eexists. split; [reflexivity|]. intros z k Hlt.
  assert (E : Nat.eqb (s_nk S) 1 = false) by (apply Nat.eqb_neq; lia). cbv beta zeta. rewrite E.
  assert (Q : forall j, (j < s_nk S)%nat -> pk_nowiggle (s_kvec S) (s_ns S) (s_lnt S) j
     = Rpower (s_kvec S j) (s_ns S) * exp (s_lnt S (ln (s_kvec S j))) ^ 2).
  { intros j Hj. unfold pk_nowiggle. rewrite fpow_pos by (apply Hpos, Hj). reflexivity. }
  rewrite <- Q by exact Hlt.
  apply (smooth_bounds (s_nk S) (s_kvec S) (a_val a z)); try assumption; [lia|].
  intros j Hj. rewrite Q by exact Hj. apply Hs, Hj.
Qed.
