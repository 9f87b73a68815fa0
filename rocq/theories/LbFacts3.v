(** Facts about the legacy beta_nl modules: options, cosmologies, layouts, and a simple emulator. *)
From Coq Require Import ZArith Lia Lra.
From Verif Require Import Base BaseFacts Quad Interp FftModel BnlModel BnlFacts BnlFacts2 OptModel OptFacts4 Spec ChainModel MiniModel LhModel LiaSpec LkModel LbModel LbSpec LbFacts2.
Open Scope R_scope.

(** ** setup *)
Lemma setup_masses missing wrong o flag c : lb_setup missing wrong o flag = Ok c -> exists lo hi n,
  gives o "log_mass_min" lo /\ gives o "log_mass_max" hi /\ o "nmass"%string = Some (OInt n) /\ n <> 0%Z /\ lo <> hi /\
  ((0 < n)%Z -> List.length (bc_mass c) = Z.to_nat n /\
    forall i, (i < Z.to_nat n)%nat -> nth i (bc_mass c) 0 = pow10 (lo + INR i * ((hi - lo) / IZR n))).
Proof.
  assert (D : forall n d, get_double missing wrong o n None = Ok d -> gives o n d).
  { intros n d. unfold get_double, absent, gives. destruct (o n) as [[z|x| | |]|]; try discriminate; intro H; injection H as <-; eauto. }
  unfold lb_setup.
  destruct (get_double missing wrong o "log_mass_min" None) as [lo|] eqn:E1; cbn [bind]; [|discriminate].
  destruct (get_double missing wrong o "log_mass_max" None) as [hi|] eqn:E2; cbn [bind]; [|discriminate].
  destruct (get_int missing wrong o "nmass" None) as [n|] eqn:E3; cbn [bind]; [|discriminate].
  destruct (Z.eqb_spec n 0) as [|N]; [discriminate|]. destruct (Req_EM_T ((hi - lo) / IZR n) 0) as [|Q]; [discriminate|].
  intro H. exists lo, hi, n. split; [now apply D|]. split; [now apply D|].
  split. { unfold get_int, absent in E3. destruct (o "nmass"%string) as [[z| | | |]|]; try discriminate. now injection E3 as ->. }
  split; [exact N|].
  assert (LH : lo <> hi). { intro E. apply Q. subst. unfold Rdiv. ring. }
  split; [exact LH|]. intro P.
  destruct (get_double missing wrong o "zmin" None); cbn [bind] in H; [|discriminate].
  destruct (get_double missing wrong o "zmax" None); cbn [bind] in H; [|discriminate].
  destruct (get_int missing wrong o "nz" None); cbn [bind] in H; [|discriminate].
  destruct (_ <? 0)%Z; [discriminate|].
  destruct (get_int missing wrong o "nk" None); cbn [bind] in H; [|discriminate].
  destruct (get_bool missing wrong o "bnl" (Some false)) as [on|]; cbn [bind] in H; [|discriminate].
  destruct (if flag then get_bool missing wrong o "interpolate_bnl" (Some true) else Ok true); cbn [bind] in H; [|discriminate].
  destruct (if on then get_int missing wrong o "update_bnl" None else Ok 1%Z); cbn [bind] in H; [|discriminate]. injection H as <-. cbn [bc_mass].
  rewrite (arange_len_div lo hi n P LH). unfold row. rewrite map_length, seq_length. split; [reflexivity|].
  intros i Hi. rewrite (nth_indep _ 0 ((fun i => pow10 (arange lo ((hi - lo) / IZR n) i)) 0%nat)) by (rewrite map_length, seq_length; exact Hi).
  rewrite (map_nth (fun i => pow10 (arange lo ((hi - lo) / IZR n) i))), seq_nth by exact Hi. reflexivity.
Qed.

(** ** The cosmology given to the emulator *)
Lemma reads_num b s n x : reads b s n x -> block_num b s n = Ok x.
Proof. unfold reads, block_num. intros [->|[k [-> ->]]]; reflexivity. Qed.
Lemma vectors E b h A ob oc om ol ns w : reads b cosmology "h0" h -> reads b cosmology "A_s" A -> reads b cosmology "omega_b" ob -> reads b cosmology "omega_c" oc ->
  reads b cosmology "omega_m" om -> reads b cosmology "omega_lambda" ol -> reads b cosmology "n_s" ns -> reads b cosmology "w" w ->
  reads b cosmology "ombh2" (ob * fpow h 2) -> reads b cosmology "omch2" (oc * fpow h 2) ->
  exists v v', lb_vector b = Ok v /\ lbc_vector E b = Ok v' /\
    (v = v' <-> clamp1 ol (54752 / 100000, 82128 / 100000) = clamp1 (1 - om - 64 / 100000) (54752 / 100000, 82128 / 100000)).
Proof.
  intros H1 H2 H3 H4 H5 H6 H7 H8 H9 H10. unfold lb_vector, lbc_vector, lbc_cosmology.
  rewrite (reads_num _ _ _ _ H1), (reads_num _ _ _ _ H2), (reads_num _ _ _ _ H3), (reads_num _ _ _ _ H4), (reads_num _ _ _ _ H5), (reads_num _ _ _ _ H6),
    (reads_num _ _ _ _ H7), (reads_num _ _ _ _ H8), (reads_num _ _ _ _ H9), (reads_num _ _ _ _ H10).
  cbn [bind]. unfold emulator. cbn [b_As b_sigma8]. unfold cparam, BnlModel.ombh2, BnlModel.omch2. cbn [b_ob b_oc b_ol b_ns b_w0 b_h0].
  unfold test_cosmo. cbn [List.length Nat.eqb combine cparam_range map fst snd bind last].
  eexists. eexists. split; [reflexivity|]. split; [reflexivity|]. split; [intro Q; now injection Q|intros ->; reflexivity].
Qed.
Lemma clamp1_in lo hi x : lo <= x <= hi -> clamp1 x (lo, hi) = x.
Proof. intro H. unfold clamp1. cbn [fst snd]. destruct (Rlt_dec x lo); [lra|]. destruct (Rlt_dec hi x); [lra|reflexivity]. Qed.

(** ** What the power-spectrum module is handed *)
Lemma handed_legacy nz n p f : lb_handed nz n p (Some (NdFour 1 n n p f)) = Some (BetaArray (fun _ => f 0%nat)).
Proof. unfold lb_handed. rewrite !Nat.eqb_refl. reflexivity. Qed.
Lemma handed_class nz n p g : lb_handed nz n p (Some (NdFour 1 p n n g)) = if Nat.eqb p n then Some (BetaArray (fun _ => g 0%nat)) else None.
Proof.
  unfold lb_handed. rewrite Nat.eqb_refl. cbn [orb andb]. rewrite (Nat.eqb_sym n p). destruct (Nat.eqb_spec p n) as [->|]; [|reflexivity].
  rewrite Nat.eqb_refl. reflexivity.
Qed.

(** ** An emulator whose interpolation is the wavenumber itself *)
Definition mean_fit (xs ys : list R) : res R := Ok (mean ys).
Lemma mean_fit_ls : least_squares mean_fit.
Proof.
  intros xs ys _ N. exists (mean ys). split; [reflexivity|]. intro a. rewrite (square_error_mean ys a N).
  assert (0 <= INR (List.length ys)) by apply pos_INR. pose proof (Rle_0_sqr (a - mean ys)) as Q. unfold Rsqr in Q.
  assert (0 <= INR (List.length ys) * ((a - mean ys) * (a - mean ys))) by (apply Rmult_le_pos; assumption). lra.
Qed.
Definition toy : emulation := {| em_phh := fun _ _ _ _ _ => 1; em_plin := fun _ _ _ => 1; em_Om := fun _ => 3 / 10; em_sigma8 := fun _ => 1;
  em_quadratic := fun _ _ => Ok (fun k => k); em_fit := mean_fit |}.
Lemma toy_interp v : exists g, build_interp (em_phh toy v) (em_plin toy v) (em_quadratic toy) (em_Om toy v) (1 / 100) = Ok g /\
  (forall x y, g x y (log10 (1 / 1000)) < 0) /\ (forall x y, 0 < g x y (log10 200)).
Proof.
  destruct (build_interp (em_phh toy v) (em_plin toy v) (em_quadratic toy) (em_Om toy v) (1 / 100)) as [g|e] eqn:B.
  - exists g. split; [reflexivity|].
    assert (O1 : 0 < em_Om toy v) by (cbn; lra). assert (O2 : em_Om toy v <= 15) by (cbn; lra).
    pose proof (build_entry _ _ _ _ _ _ O1 O2 B) as H.
    assert (G0 : grid_k 0 = 1 / 1000).
    { unfold grid_k. unfold logspace, linspace, lenk. cbn [Nat.eqb Nat.mul Nat.add]. rewrite Rmult_0_l, Rplus_0_r.
      unfold pow10, ten. replace (-3) with (- (INR 3)) by (simpl; lra). rewrite Rpower_Ropp, Rpower_pow by lra. lra. }
    assert (G9 : grid_k 999 = 200).
    { unfold grid_k, logspace, linspace, lenk. change (Nat.eqb (10 * 10 * 10) 1) with false. change (Nat.eqb 1000 (10 * 10 * 10)) with true. cbv iota. apply pow10_log10. lra. }
    assert (P : forall k kt, 0 < low_k_truncation k kt /\ 0 < high_k_truncation k kt).
    { intros k kt. unfold low_k_truncation, high_k_truncation.
      split; (apply Rdiv_lt_0_compat; [lra|]; match goal with |- 0 < 1 + exp ?z => pose proof (exp_pos z); lra end). }
    assert (V : forall x y n, (n < lenk)%nat -> g x y (log10 (grid_k n)) = (grid_k n - klin) * low_k_truncation (grid_k n) klin * high_k_truncation (grid_k n) (3 * snd (minimum_halo_mass (3 / 10)))).
    { intros x y n Hn. destruct (H x y (log10 (grid_k n))) as (a & c & ik & f & _ & _ & Hk & _ & _ & M & F & ->).
      assert (E : grid_k ik = grid_k n).
      { specialize (M n Hn). rewrite (Rminus_diag_eq (log10 (grid_k n)) _ eq_refl), Rabs_R0 in M.
        assert (Z : log10 (grid_k n) - log10 (grid_k ik) = 0).
        { destruct (Req_EM_T (log10 (grid_k n) - log10 (grid_k ik)) 0) as [|X]; [assumption|]. pose proof (Rabs_pos_lt _ X). lra. }
        rewrite <- (pow10_log10 (grid_k n)), <- (pow10_log10 (grid_k ik)) by (unfold grid_k, logspace; apply pow10_pos). f_equal. lra. }
      unfold beta_final in F. destruct (hl_envelopes_idx _ 1 1); cbn [bind] in F; [|discriminate]. cbn [em_quadratic toy bind] in F. injection F as <-.
      rewrite E. cbn [em_Om toy]. f_equal. f_equal. lra. }
    assert (K : klin = 5 / 100) by reflexivity.
    split; intros x y.
    + rewrite <- G0, V by (unfold lenk; lia). rewrite G0, K. destruct (P (1 / 1000) (5 / 100)) as [P1 _]. destruct (P (1 / 1000) (3 * snd (minimum_halo_mass (3 / 10)))) as [_ P2].
      rewrite Rmult_assoc. rewrite <- (Ropp_involutive (_ * _)). apply Ropp_lt_gt_0_contravar. rewrite <- Ropp_mult_distr_l_reverse.
      apply Rmult_lt_0_compat; [lra|]. now apply Rmult_lt_0_compat.
    + rewrite <- G9, V by (unfold lenk; lia). rewrite G9, K. destruct (P 200 (5 / 100)) as [P1 _]. destruct (P 200 (3 * snd (minimum_halo_mass (3 / 10)))) as [_ P2].
      rewrite Rmult_assoc. apply Rmult_lt_0_compat; [lra|]. now apply Rmult_lt_0_compat.
  - exfalso. unfold build_interp in B. destruct (compute_bnl_darkquest _ _ _ _ _ _) eqn:C; cbn [bind] in B; [discriminate|].
    match type of C with compute_bnl_darkquest ?p ?l ?q ?m ?k ?x = _ => destruct (proj2 (darkquest_ok p l q m k x)) as [t T]; [|congruence] end.
    intros i j _ _. unfold beta_final, hl_envelopes_idx, chunks. cbn [Nat.eqb bind em_quadratic toy]. eauto.
Qed.
