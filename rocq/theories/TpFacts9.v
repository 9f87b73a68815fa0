(** The statements about the legacy likelihood front end, in the form the
    properties take. *)
From Verif Require Import Base OptModel TpModel TpSpec TpFacts TpFacts2 TpFacts3 TpFacts4 TpFacts5 TpFacts6 TpFacts7 TpFacts8 TpExample.
From Coq Require Import ZArith Ascii List Sorting.Sorted Sorting.Permutation.
Import ListNotations.
Open Scope string_scope.

Lemma mem_in : forall x l, mem x l = true <-> In x l.
Proof.
  intros x l. unfold mem. rewrite existsb_exists. split.
  - intros (y & H & E). apply String.eqb_eq in E. now subst.
  - intro H. exists x. split; [exact H | apply String.eqb_refl].
Qed.
Lemma chosen_iff : forall sets p, chosen_b sets p = true <-> exists d, In d sets /\ lower (point_name p) = lower d.
Proof.
  intros sets p. unfold chosen_b. rewrite mem_in, in_map_iff. split; intros (d & A & B); exists d; auto.
Qed.

Lemma cross_keeps : forall f f', wf_file f -> mask_cross f = Ok f' ->
  keeps (fun p _ => match p with P2 _ b1 b2 _ _ => b1 = b2 | P1 _ _ _ => True end) f f'.
Proof.
  intros f f' W H. destruct (mask_cross_spec f f' W H) as (_ & K). revert K. apply keeps_ext.
  intros [n b1 b2 ab x | n k i] v; cbn; [apply Z.eqb_eq | tauto].
Qed.
Lemma bad_keeps : forall bad f f', wf_file f -> mask_bad bad f = Ok f' ->
  keeps (fun p v => match p with P2 _ _ _ _ _ => v <> bad | P1 _ _ _ => True end) f f'.
Proof.
  intros bad f f' W H. destruct (mask_bad_spec bad f f' W H) as (_ & K). revert K. apply keeps_ext.
  intros [n b1 b2 ab x | n k i] v; cbn; [| tauto]. destruct (Req_EM_T v bad); split; auto; discriminate || contradiction.
Qed.
Lemma scales_keeps : forall cuts bins f f', wf_file f -> mask_scales cuts bins f = Ok f' ->
  keeps (fun p _ => match p with
    | P2 n b1 b2 _ x => ~ In (n, b1, b2) bins /\ forall lo hi, assoc3 (n, b1, b2) cuts = Some (lo, hi) -> lo <= x <= hi
    | P1 _ _ _ => True end) f f'.
Proof.
  intros cuts bins f f' W H. destruct (mask_scales_spec cuts bins f f' W H) as (_ & K). revert K. apply keeps_ext.
  intros [n b1 b2 ab x | n k i] v; [apply scales_passes | cbn; tauto].
Qed.
Lemma scale_keeps : forall t lo hi f f', wf_file f -> mask_scale t lo hi f = Ok f' ->
  keeps (fun p _ => match p with
    | P2 n _ _ _ x => t = "all" \/ substring_of n t -> lo < x < hi
    | P1 _ _ _ => True end) f f'.
Proof.
  intros t lo hi f f' W H. destruct (mask_scale_spec t lo hi f f' W H) as (_ & K). revert K. apply keeps_ext.
  intros [n b1 b2 ab x | n k i] v; [apply scale_passes | cbn; tauto].
Qed.
Lemma choose_keeps : forall sets f f', wf_file f -> choose_data_sets sets f = Ok f' ->
  Forall (set_known f) sets /\
  keeps (fun p _ => exists d, In d sets /\ lower (point_name p) = lower d) f f'.
Proof.
  intros sets f f' W H. destruct (choose_spec sets f f' W H) as (_ & A & K & _). split; [exact A |].
  revert K. apply keeps_ext. intros p v. apply chosen_iff.
Qed.
Lemma setup_points : forall to_int to_float inv c items f s lc, wf_file f -> setup to_int to_float inv c items f = Ok s ->
  a_bins (o_args s) = [] -> mapr (custom_tag c) (o_stats s) = Ok lc ->
  exists K, StronglySorted lt K /\ picks K (values f) (o_data s) /\ m_n (o_cov s) = length K /\
    (forall m i j a b, f_cov f = Some m -> nth_error K i = Some a -> nth_error K j = Some b -> m_at (o_cov s) i j = m_at m a b) /\
    forall k p, nth_error (points f) k = Some p ->
      (In k K <-> passes (o_args s) p /\ exists d, In d lc /\ lower (point_name p) = lower d).
Proof.
  intros to_int to_float inv c items f s lc W H Eb El.
  destruct (setup_keeps to_int to_float inv c items f s lc W H Eb El) as (f2 & W2 & Ed & Em & K & C & I).
  exists K. split; [exact (cut_sorted _ _ _ C) |]. rewrite (mean_vector_inv f2 _ W2 Ed). split; [exact (cut_values _ _ _ C) |].
  pose proof (cut_cov _ _ _ C) as Q. rewrite Em in Q. destruct (f_cov f) as [m0 |] eqn:Ef; [| contradiction]. destruct Q as (Q1 & Q2).
  split; [exact Q1 |]. split; [intros m i j a b E; injection E as <-; apply Q2 |].
  intros k p Hp. destruct (nth_error (values f) k) as [v |] eqn:Ev.
  - rewrite (I k p v Hp Ev), chosen_iff. reflexivity.
  - exfalso. apply nth_error_None in Ev. rewrite <- (points_values f W) in Ev.
    assert (k < length (points f))%nat by (apply nth_error_Some; congruence). lia.
Qed.

(** The names of the statistics in a substring relation are cut together. *)
Lemma substring_refuted : exists t lo hi f f' p, wf_file f /\ mask_scale t lo hi f = Ok f' /\
  In p (points f) /\ point_name p <> t /\ t <> "all" /\ ~ In p (points f').
Proof.
  pose (f := ex_file "xi" "xi_plus"). destruct (mask_scale_total "xi_plus" 20 30 f (ex_wf _ _)) as (f' & E).
  exists "xi_plus", 20, 30, f, f', (P2 "xi" 1 1 1 10). split; [apply ex_wf |]. split; [exact E |].
  split; [now left |]. split; [discriminate |]. split; [discriminate |]. intro H.
  destruct (scale_keeps _ _ _ _ _ (ex_wf _ _) E) as (K & C & I). apply In_nth_error in H as (i & Hi).
  destruct (cut_points _ _ _ C) as (L & P). assert (Hk : (i < length K)%nat) by (rewrite <- L; apply nth_error_Some; congruence).
  destruct (nth_error K i) as [k |] eqn:Ek; [| apply nth_error_None in Ek; lia].
  destruct (P i k Ek) as (x & A & B). rewrite Hi in B. injection B as <-.
  destruct (nth_error (values f) k) as [v |] eqn:Ev.
  - pose proof (proj1 (I k _ v A Ev) (nth_error_In _ _ Ek)) as Q. cbn in Q.
    assert (20 < 10 < 30) by (apply Q; right; exists "", "_plus"; reflexivity). lra.
  - apply nth_error_None in Ev. rewrite <- (points_values f (ex_wf _ _)) in Ev.
    assert (k < length (points f))%nat by (apply nth_error_Some; intro Z; pose proof (eq_trans (eq_sym Z) A) as Q; discriminate Q). lia.
Qed.

(** ** Options that do not do what they say *)
Lemma cross_false : exists st, make_args ex_int ex_float default_ext [("cut_cross", "False")] = Ok st /\ a_cross (snd st) = true.
Proof. eexists. split; reflexivity. Qed.
Lemma four_words : forall to_int to_float c pre post value,
  make_args to_int to_float c (pre ++ ("keep_ang_psi_gm", value) :: post) = make_args to_int to_float c (pre ++ post) /\
  make_args to_int to_float c (pre ++ ("keep_ang_xip_1", value) :: post) = make_args to_int to_float c (pre ++ post).
Proof. intros. split; apply ignored; cbn; try discriminate; auto. Qed.
Lemma psi_pair : forall to_int to_float value,
  make_args to_int to_float default_ext [("cut_pair_psi_gm", value)] = Err "KeyError" /\
  make_args to_int to_float default_ext [("cut_bin_psi_gg", value)] = Err "KeyError".
Proof. intros. split; reflexivity. Qed.
Lemma no_stats : forall to_int to_float inv c items f s, nowhere (fun k => k = "use_stats") items ->
  setup to_int to_float inv c items f <> Ok s.
Proof.
  intros to_int to_float inv c items f s N H. apply setup_inv in H as (lc & f1 & f2 & d & m & Ea & _).
  apply make_means in Ea. cbn [fst snd] in Ea. pose proof (mn_stats _ _ _ _ _ _ Ea) as (v & (pre & k & post & E & Ek & _) & _).
  apply (N (k, v)); [rewrite E; apply in_or_app; right; now left | exact Ek].
Qed.

(** ** Order and case *)
Definition rev_block : block :=
  mkBlock (fun s => mem s ["shear_xi_plus"; "shear_xi_minus"])
    (fun s n =>
       if String.eqb n "theta" then Some [10] else
       let p := String.eqb s "shear_xi_plus" in
       if String.eqb n "bin_1_1" then Some [if p then 4 else 1] else
       if String.eqb n "bin_2_1" then Some [if p then 5 else 2] else
       if String.eqb n "bin_2_2" then Some [if p then 6 else 3] else None).
Lemma order_refuted : exists f b items s g t, wf_file f /\
  setup ex_int ex_float same_mat default_ext items f = Ok s /\
  theory_file b default_sec default_ext (o_stats s) = Ok g /\ theory_vector b default_sec default_ext s = Ok t /\
  Permutation (combine (points f) (values f)) (combine (points g) (values g)) /\ length t = length (o_data s) /\ t <> o_data s.
Proof.
  exists (ex_file "xim" "xip"), rev_block, [("use_stats", "xip xim")]. eexists. eexists. eexists.
  split; [apply ex_wf |]. split; [reflexivity |]. split; [reflexivity |]. split; [reflexivity |]. split; [| split; [reflexivity |]].
  - cbn. apply (Permutation_app_comm
      [(P2 "xim" 1 1 1 10, 1); (P2 "xim" 1 2 1 10, 2); (P2 "xim" 2 2 1 10, 3)]
      [(P2 "xip" 1 1 1 10, 4); (P2 "xip" 1 2 1 10, 5); (P2 "xip" 2 2 1 10, 6)]).
  - cbn. intro E. injection E as E _. lra.
Qed.
Lemma case_refuted : exists s t, setup ex_int ex_float same_mat default_ext [("use_stats", "XIP xim")] (ex_file "xip" "xim") = Ok s /\
  o_data s = [1; 2; 3; 4; 5; 6] /\ theory_vector ex_block default_sec default_ext s = Ok t /\ length t = 3%nat /\
  chi2 (o_data s) t (o_inv s) = Err "ValueError".
Proof. eexists. eexists. split; [reflexivity |]. split; [reflexivity |]. split; [reflexivity |]. split; reflexivity. Qed.
Lemma unused_case : exists s, setup ex_int ex_float same_mat default_ext [("use_stats", "xip"); ("cut_bin_gammat", "1")] (ex_file "xip" "gammat") = Ok s /\
  theory_vector ex_block default_sec default_ext s = Err "ValueError".
Proof. eexists. split; reflexivity. Qed.

(** ** The likelihood of the cut vectors *)
Lemma setup_pos_def : forall to_int to_float inv c items f s m, wf_file f -> setup to_int to_float inv c items f = Ok s ->
  f_cov f = Some m -> pos_def m -> m_n (o_cov s) = length (o_data s) /\ pos_def (o_cov s).
Proof.
  intros to_int to_float inv c items f s m W H Em P.
  apply setup_inv in H as (lc & f1 & f2 & d & m2 & _ & _ & E1 & E2 & Ed & Em2 & -> & -> & _).
  destruct (run_ops_cut _ f f1 W E1) as (W1 & K1 & C1). destruct (choose_spec lc f1 f2 W1 E2) as (W2 & _ & (K2 & C2 & _) & _).
  split.
  - rewrite (mean_vector_inv f2 _ W2 Ed), <- (points_values f2 W2). exact (proj1 (wf_cov f2 W2 _ Em2)).
  - exact (pos_def_cut _ f f2 m _ (cut_trans _ _ _ _ _ C1 C2) W Em Em2 P).
Qed.
Lemma likelihood : forall to_int to_float inv c items f s m t, wf_file f -> setup to_int to_float inv c items f = Ok s ->
  f_cov f = Some m -> pos_def m -> inverse_of (o_cov s) (o_inv s) -> length t = length (o_data s) ->
  exists x, ln_like (o_data s) t (o_inv s) = Ok x /\ x <= 0 /\ (x = 0 <-> t = o_data s).
Proof.
  intros to_int to_float inv c items f s m t W H Em P I L.
  destruct (setup_pos_def _ _ _ _ _ _ _ _ W H Em P) as (N & P').
  destruct (chi2_pos (o_cov s) (o_inv s) (o_data s) t I P' (eq_sym L) (eq_sym N)) as (x & Ex & X0 & X1).
  exists (- (1 / 2) * x). unfold ln_like. rewrite Ex. split; [reflexivity |]. split; [lra |]. split.
  - intro Z. symmetry. apply X1. lra.
  - intro E. assert (x = 0) by (apply X1; congruence). lra.
Qed.
Lemma ln_like_eq : forall d t i, length d = length t -> length d = m_n i ->
  ln_like d t i = Ok (- (1 / 2) * sumR (length d) (fun a => sumR (length d) (fun b =>
    (nth a d 0 - nth a t 0) * m_at i a b * (nth b d 0 - nth b t 0)))).
Proof. intros d t i L N. unfold ln_like. now rewrite chi2_eq. Qed.
Lemma ln_like_bad : forall d t i, length d <> length t -> length d <> 1%nat -> length t <> 1%nat -> ln_like d t i = Err "ValueError".
Proof.
  intros d t i N Nd Nt. unfold ln_like, chi2, bcast2. apply Nat.eqb_neq in N as ->.
  destruct d as [| a [| b d]]; [| now destruct Nd |]; (destruct t as [| u [| v t]]; [| now destruct Nt |]); reflexivity.
Qed.
Lemma ln_like_broadcast : forall d t i, length d = m_n i ->
  ln_like d [t] i = ln_like d (repeat t (length d)) i.
Proof.
  intros d t i N. unfold ln_like, chi2, bcast2. rewrite repeat_length, Nat.eqb_refl. cbn [length].
  assert (E : map (fun p => fst p - snd p) (combine d (repeat t (length d))) = map (fun x => x - t) d).
  { clear. induction d as [| x d IH]; cbn; [reflexivity | now rewrite IH]. }
  rewrite E. destruct (Nat.eqb_spec (length d) 1) as [E1 | N1].
  - destruct d as [| x [| y d]]; try discriminate E1. reflexivity.
  - destruct d as [| x [| y d]]; try reflexivity.
Qed.

(** ** Mock vectors *)
Definition mock_file (bins : list (list R)) : tpfile := mkFile [ex_sp "xip" 1 2 3] (Some [new_onept "1pt" bins]) None None.
Lemma mock_wf : forall bins, (forall x y, In x bins -> In y bins -> length x = length y) -> wf_file (mock_file bins).
Proof.
  intros bins H. constructor; cbn [f_spectra mock_file obs_list f_nobs f_cov].
  - apply Forall_cons; [apply ex_sp_wf | apply Forall_nil].
  - apply Forall_cons; [| apply Forall_nil]. constructor; [reflexivity | exact H].
  - discriminate.
Qed.
Lemma mock_refuted : exists f v f', wf_file f /\ length v = length (values f) /\ replace_mean_vector v f = Ok f' /\
  mean_vector f' = Err "ValueError".
Proof.
  exists (mock_file [[7]; [8]]), [10; 20; 30; 40; 50]. eexists. split.
  - apply mock_wf. intros x y [<- | [<- | []]] [<- | [<- | []]]; reflexivity.
  - split; [reflexivity |]. split; reflexivity.
Qed.
Lemma mock_refuted2 : exists f v, wf_file f /\ length v = length (values f) /\ replace_mean_vector v f = Err "IndexError".
Proof.
  exists (mkFile [ex_sp "xip" 1 2 3] (Some [new_onept "1pt" [[7]]; new_onept "2pt" [[8]]]) None None), [10; 20; 30; 40; 50]. split.
  - constructor; cbn [f_spectra obs_list f_nobs f_cov].
    + apply Forall_cons; [apply ex_sp_wf | apply Forall_nil].
    + apply Forall_cons; [| apply Forall_cons; [| apply Forall_nil]]; (constructor; [reflexivity |]); intros x y [<- | []] [<- | []]; reflexivity.
    + discriminate.
  - split; reflexivity.
Qed.

Lemma unit_setup : forall to_int to_float c items f s n, wf_file f -> setup to_int to_float same_mat c items f = Ok s ->
  f_cov f = Some (unit_mat n) -> inverse_of (o_cov s) (o_inv s).
Proof.
  intros to_int to_float c items f s n W H Em.
  apply setup_inv in H as (lc & f1 & f2 & d & m2 & _ & _ & E1 & E2 & Ed & Em2 & _ & -> & Ei). injection Ei as Ei.
  destruct (run_ops_cut _ f f1 W E1) as (W1 & K1 & C1). destruct (choose_spec lc f1 f2 W1 E2) as (W2 & _ & (K2 & C2 & _) & _).
  pose proof (cut_trans _ _ _ _ _ C1 C2) as C. set (K := compose_K K1 K2) in *.
  pose proof (cut_cov _ _ _ C) as Q. rewrite Em, Em2 in Q. destruct Q as (Q1 & Q2). rewrite <- Ei. split; [reflexivity |].
  assert (U : forall a b, (a < length K)%nat -> (b < length K)%nat -> m_at (o_cov s) a b = kron a b).
  { intros a b Ha Hb. rewrite (Q2 a b (nth a K 0%nat) (nth b K 0%nat)) by now apply nth_error_nth'.
    cbn [m_at unit_mat]. unfold kron. destruct (Nat.eqb_spec a b) as [-> | N]; [now rewrite Nat.eqb_refl |].
    destruct (Nat.eqb_spec (nth a K 0%nat) (nth b K 0%nat)) as [E | E]; [| reflexivity].
    exfalso. apply N. exact (proj1 (NoDup_nth K 0%nat) (sorted_nodup K (cut_sorted _ _ _ C)) a b Ha Hb E). }
  rewrite Q1. intros a b Ha Hb. transitivity (sumR (length K) (fun k => kron a k * m_at (o_cov s) k b)).
  - apply QuadFacts.sumR_ext. intros k Hk. now rewrite (U a k Ha Hk).
  - rewrite (sum_kron (length K) a (fun k => m_at (o_cov s) k b) Ha). rewrite (U a b Ha Hb). reflexivity.
Qed.
