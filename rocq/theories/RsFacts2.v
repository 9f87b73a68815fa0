(** Proofs about fftl, the projection over redshift, the cosmology correction and the angle conversion. *)
From Coq Require Import ZArith Lia.
From Verif Require Import Base Spec Quad Interp BaseFacts QuadFacts InterpFacts FftModel FftSpec FftFacts FftFacts2 FftFacts3 FftFacts4 FftFacts5 FftFacts6 RsModel RsSpec RsFacts.
Open Scope R_scope.

(** ** fftl in terms of fht *)
Definition offset (n : nat) (dlnr : R) (i : nat) : R := (INR i - (INR n - 1) / 2) * dlnr.
Section Gamma.
  Variables lgr lgi : R -> R -> R.
  Theorem fftl_fht n mu dlnr q kr xs a rk dir : (1 <= n)%nat -> 0 < rk -> work lgr lgi n mu dlnr q kr xs -> (dir = 1 \/ dir = -1)%Z ->
    exists out h, fftl n a xs rk dir = Ok out /\ fht n (fun i => a i * exp (IZR dir * offset n dlnr i / 2)) xs dir = Ok h /\
      forall j, (j < n)%nat -> out j = Rpower rk (IZR dir / 2) * exp (- IZR dir * offset n dlnr j / 2) * h j.
  Proof.
    intros Hn RK W Hd. destruct (fht_closed lgr lgi n mu dlnr q kr xs (fun i => a i * exp (IZR dir * offset n dlnr i / 2)) dir Hn W Hd) as (h & EH & HH).
    pose proof W as (W0 & W1 & W2 & _). unfold fftl. rewrite W0, W1, W2. cbn [bind].
    match goal with |- context [fhtq n ?b xs dir] => destruct (fhtq_closed lgr lgi n mu dlnr q kr xs b dir Hn W Hd) as (o & E & H) end.
    rewrite E. cbn [bind]. eexists _, h. split; [reflexivity|]. split; [exact EH|]. intros j Hj. cbv beta. rewrite H, HH by exact Hj.
    rewrite (sumR_ext n (fun i => a i * exp (IZR dir * offset n dlnr i / 2) * pre n q dlnr dir i * _) (fun i => a i * exp (- IZR dir * (q - / 2) * (INR i + 1 - (INR n + 1) / 2) * dlnr) * kernel_of lgr lgi n mu dlnr q kr dir (INR (n - 1 - j) - INR i))).
    - unfold post, Rpower. rewrite (Rmult_comm (sumR _ _)), <- !Rmult_assoc. f_equal. rewrite <- !exp_plus. f_equal. unfold offset. field.
    - intros i Hi. f_equal. rewrite Rmult_assoc. f_equal. unfold pre. rewrite <- exp_plus. f_equal. unfold offset. field.
  Qed.
  Lemma fht_total n mu dlnr q kr xs a dir : (1 <= n)%nat -> work lgr lgi n mu dlnr q kr xs -> (dir = 1 \/ dir = -1)%Z -> exists out, fht n a xs dir = Ok out.
  Proof. intros Hn W Hd. destruct (fht_closed lgr lgi n mu dlnr q kr xs a dir Hn W Hd) as (o & E & _). eauto. Qed.
  Lemma fhtq_total n mu dlnr q kr xs a dir : (1 <= n)%nat -> work lgr lgi n mu dlnr q kr xs -> (dir = 1 \/ dir = -1)%Z -> exists out, fhtq n a xs dir = Ok out.
  Proof. intros Hn W Hd. destruct (fhtq_closed lgr lgi n mu dlnr q kr xs a dir Hn W Hd) as (o & E & _). eauto. Qed.
  Lemma fht_linear n mu dlnr q kr xs a b c d dir oa ob oc : (1 <= n)%nat -> work lgr lgi n mu dlnr q kr xs -> (dir = 1 \/ dir = -1)%Z ->
    fht n a xs dir = Ok oa -> fht n b xs dir = Ok ob -> fht n (fun i => c * a i + d * b i) xs dir = Ok oc -> forall j, (j < n)%nat -> oc j = c * oa j + d * ob j.
  Proof.
    intros Hn W Hd EA EB EC j Hj. rewrite (fht_any _ _ _ _ _ _ _ _ _ _ _ Hn W Hd EA j Hj), (fht_any _ _ _ _ _ _ _ _ _ _ _ Hn W Hd EB j Hj), (fht_any _ _ _ _ _ _ _ _ _ _ _ Hn W Hd EC j Hj).
    rewrite (Rmult_comm c), (Rmult_comm d), !Rmult_assoc, <- Rmult_plus_distr_l. f_equal. rewrite (Rmult_comm _ c), (Rmult_comm _ d), <- !sumR_scal, <- sumR_plus. apply sumR_ext. intros i _. ring.
  Qed.
  Lemma fhtq_linear n mu dlnr q kr xs a b c d dir oa ob oc : (1 <= n)%nat -> work lgr lgi n mu dlnr q kr xs -> (dir = 1 \/ dir = -1)%Z ->
    fhtq n a xs dir = Ok oa -> fhtq n b xs dir = Ok ob -> fhtq n (fun i => c * a i + d * b i) xs dir = Ok oc -> forall j, (j < n)%nat -> oc j = c * oa j + d * ob j.
  Proof.
    intros Hn W Hd EA EB EC j Hj. rewrite (fhtq_any _ _ _ _ _ _ _ _ _ _ _ Hn W Hd EA j Hj), (fhtq_any _ _ _ _ _ _ _ _ _ _ _ Hn W Hd EB j Hj), (fhtq_any _ _ _ _ _ _ _ _ _ _ _ Hn W Hd EC j Hj).
    rewrite <- !sumR_scal, <- sumR_plus. apply sumR_ext. intros i _. ring.
  Qed.
  Lemma fht_ext n mu dlnr q kr xs a b dir oa ob : (1 <= n)%nat -> work lgr lgi n mu dlnr q kr xs -> (dir = 1 \/ dir = -1)%Z -> (forall i, (i < n)%nat -> a i = b i) ->
    fht n a xs dir = Ok oa -> fht n b xs dir = Ok ob -> forall j, (j < n)%nat -> oa j = ob j.
  Proof.
    intros Hn W Hd AB EA EB j Hj. rewrite (fht_any _ _ _ _ _ _ _ _ _ _ _ Hn W Hd EA j Hj), (fht_any _ _ _ _ _ _ _ _ _ _ _ Hn W Hd EB j Hj). f_equal. apply sumR_ext. intros i Hi. now rewrite AB.
  Qed.

  (** The round trip through fftl, exactly: it works when the array is multiplied by k / k_c in between,
      and then returns A r / r_c. *)
  Theorem fftl_round n mu dlnr q kr xs a rk dir dir' out back : (1 <= n)%nat -> 0 < kr -> 0 < rk -> dlnr <> 0 -> work lgr lgi n mu dlnr q kr xs -> invertible lgr lgi n mu dlnr q kr ->
    (dir = 1 /\ dir' = -1 \/ dir = -1 /\ dir' = 1)%Z -> fftl n a xs rk dir = Ok out ->
    fftl n (fun i => out i * exp (IZR dir * offset n dlnr i)) xs rk dir' = Ok back -> forall j, (j < n)%nat -> back j = a j * exp (IZR dir * offset n dlnr j).
  Proof.
    intros Hn KR RK D W I Hd E1 E2 j Hj. assert (D1 : (dir = 1 \/ dir = -1)%Z) by lia. assert (D2 : (dir' = 1 \/ dir' = -1)%Z) by lia.
    assert (DN : IZR dir' = - IZR dir) by (destruct Hd as [[-> ->]|[-> ->]]; cbn; lra).
    destruct (fftl_fht n mu dlnr q kr xs a rk dir Hn RK W D1) as (o1 & h1 & F1 & G1 & V1). rewrite F1 in E1. injection E1 as ->.
    destruct (fftl_fht n mu dlnr q kr xs (fun i => out i * exp (IZR dir * offset n dlnr i)) rk dir' Hn RK W D2) as (o2 & h2 & F2 & G2 & V2). rewrite F2 in E2. injection E2 as ->.
    rewrite V2 by exact Hj.
    destruct (fht_total n mu dlnr q kr xs h1 dir' Hn W D2) as (h3 & G3).
    pose proof (fht_inverse lgr lgi n mu dlnr q kr xs dir dir' _ h1 h3 Hn KR D W I Hd G1 G3) as INV.
    destruct (fht_total n mu dlnr q kr xs (fun i => Rpower rk (IZR dir / 2) * h1 i + 0 * h1 i) dir' Hn W D2) as (h4 & G4).
    pose proof (fht_linear n mu dlnr q kr xs h1 h1 (Rpower rk (IZR dir / 2)) 0 dir' h3 h3 h4 Hn W D2 G3 G3 G4 j Hj) as LIN.
    rewrite (fht_ext n mu dlnr q kr xs _ _ dir' h2 h4 Hn W D2) with (j := j) (2 := G2) (3 := G4); [|intros i Hi|exact Hj].
    - rewrite LIN, INV by exact Hj. rewrite DN, Rmult_0_l, Rplus_0_r.
      replace (Rpower rk (- IZR dir / 2) * exp (- - IZR dir * offset n dlnr j / 2) * (Rpower rk (IZR dir / 2) * (a j * exp (IZR dir * offset n dlnr j / 2))))
        with (a j * (Rpower rk (- IZR dir / 2) * Rpower rk (IZR dir / 2)) * (exp (- - IZR dir * offset n dlnr j / 2) * exp (IZR dir * offset n dlnr j / 2))) by ring.
      rewrite <- Rpower_plus, <- exp_plus. replace (- IZR dir / 2 + IZR dir / 2) with 0 by field. rewrite Rpower_O by exact RK. rewrite Rmult_1_r. f_equal. f_equal. field.
    - rewrite V1 by exact Hi. rewrite Rmult_0_l, Rplus_0_r, DN.
      replace (Rpower rk (IZR dir / 2) * exp (- IZR dir * offset n dlnr i / 2) * h1 i * exp (IZR dir * offset n dlnr i) * exp (- IZR dir * offset n dlnr i / 2))
        with (Rpower rk (IZR dir / 2) * h1 i * (exp (- IZR dir * offset n dlnr i / 2) * exp (IZR dir * offset n dlnr i) * exp (- IZR dir * offset n dlnr i / 2))) by ring.
      rewrite <- !exp_plus. replace (- IZR dir * offset n dlnr i / 2 + IZR dir * offset n dlnr i + - IZR dir * offset n dlnr i / 2) with 0 by field. rewrite exp_0. ring.
  Qed.
End Gamma.

(** The documented round trip does not hold: two points, one decade apart in ln r. *)
Definition gam0 : R -> R -> R := fun _ _ => 0.
Lemma swap_two xs a dir h : work gam0 gam0 2 0 1 0 2 xs -> (dir = 1 \/ dir = -1)%Z -> fht 2 a xs dir = Ok h -> h 0%nat = a 1%nat /\ h 1%nat = a 0%nat.
Proof.
  intros W Hd E. assert (LR : low_ringing gam0 0 0 1 2). { exists 0%Z. unfold bessel_phase, gam0. field. }
  pose proof (kernel_form gam0 gam0 2 0 1 2 1 xs a dir h ltac:(lia) ltac:(lra) ltac:(lra) ltac:(lra) W (fun _ => LR) Hd E) as K.
  assert (KER : forall i j, bessel_kernel gam0 2 0 1 (ln (log_grid 2 1 1 i * log_grid 2 (2 / 1) 1 j)) = (1 + cos (- PI * (INR i + INR j - 1))) / 2).
  { intros i j. unfold bessel_kernel. change (2 / 2)%nat with 1%nat. cbn [sumR]. change (Nat.eqb (2 * 1) 2) with true. cbv iota. rewrite Rmult_1_l, Rplus_0_l.
    change (INR 2) with 2. f_equal. f_equal. f_equal. rewrite ln_mult by (apply log_grid_pos; lra). rewrite !ln_log_grid by lra.
    unfold bessel_phase, gam0, mode_freq. change (INR 1) with 1. change (INR 2) with 2. replace (2 / 1) with 2 by field. rewrite ln_1. field. }
  split.
  - rewrite (K 0%nat) by lia. cbn [sumR]. rewrite !KER. change (INR 0) with 0. change (INR 1) with 1. replace (- PI * (0 + 0 - 1)) with PI by ring. replace (- PI * (1 + 0 - 1)) with 0 by ring. rewrite cos_PI, cos_0. field.
  - rewrite (K 1%nat) by lia. cbn [sumR]. rewrite !KER. change (INR 0) with 0. change (INR 1) with 1. replace (- PI * (0 + 1 - 1)) with 0 by ring. replace (- PI * (1 + 1 - 1)) with (- PI) by ring. rewrite cos_neg, cos_PI, cos_0. field.
Qed.
Lemma work_two : exists xs, fhti gam0 gam0 2 0 1 0 2 0 = Ok (2, xs) /\ work gam0 gam0 2 0 1 0 2 xs.
Proof.
  destruct (fhti_total gam0 gam0 2 0 1 0 2 0 ltac:(lia) ltac:(lia)) as (kr & xs & E); [congruence|]. exists xs.
  destruct (fhti_work _ _ _ _ _ _ _ _ _ _ E) as (_ & A & W). cbn in A. injection A as <-. split; assumption.
Qed.
Lemma fftl_no_round : exists xs out back, fhti gam0 gam0 2 0 1 0 2 0 = Ok (2, xs) /\
  fftl 2 (fun _ => 1) xs 1 1 = Ok out /\ fftl 2 out xs 1 (-1) = Ok back /\ back 0%nat = exp (-1) /\ back 0%nat <> 1.
Proof.
  destruct work_two as (xs & E & W).
  destruct (fftl_fht gam0 gam0 2 0 1 0 2 xs (fun _ => 1) 1 1 ltac:(lia) ltac:(lra) W (or_introl eq_refl)) as (o & h & F & G & V).
  destruct (fftl_fht gam0 gam0 2 0 1 0 2 xs o 1 (-1) ltac:(lia) ltac:(lra) W (or_intror eq_refl)) as (b & h' & F' & G' & V').
  exists xs, o, b. do 3 (split; [assumption|]).
  destruct (swap_two xs _ _ h W (or_introl eq_refl) G) as [H0 H1]. destruct (swap_two xs _ _ h' W (or_intror eq_refl) G') as [H0' H1'].
  assert (B : b 0%nat = exp (-1)).
  { rewrite V' by lia. rewrite H0'. rewrite V by lia. rewrite H1. unfold offset. change (INR 0) with 0. change (INR 1) with 1. change (INR 2) with 2. unfold Rpower. rewrite ln_1, !Rmult_0_r, exp_0.
    rewrite !Rmult_1_l, <- !exp_plus. f_equal. field. }
  split; [exact B|]. rewrite B. intros H. rewrite <- exp_0 in H at 1. apply exp_inv in H. lra.
Qed.
(** fhti stores an array in one cell when both gamma arguments are poles at distance 2 or more. *)
Lemma np_round_Z (z : Z) : np_round (IZR z) = z.
Proof.
  pose proof (np_round_half (IZR z)) as H. apply eq_IZR. destruct (Req_dec (IZR (np_round (IZR z))) (IZR z)) as [E|N]; [exact E|]. exfalso.
  rewrite <- minus_IZR, <- abs_IZR in H. assert (ZN : (np_round (IZR z) <> z)%Z) by (intros E; apply N; now rewrite E).
  assert (X : (1 <= Z.abs (z - np_round (IZR z)))%Z) by lia. apply IZR_le in X. lra.
Qed.
Lemma fhti_two_poles n dlnr kr kropt : fhti gam0 gam0 n (-3) dlnr 2 kr kropt = Err "ValueError" \/ (n = 0)%nat \/ (3 <= kropt)%nat.
Proof.
  destruct (le_lt_dec 3 kropt) as [L|L]; [tauto|]. destruct n as [|n]; [tauto|]. left.
  unfold fhti. assert (exists k, adjust_kr gam0 (-3) 2 dlnr kr kropt = Ok k) as [k ->].
  { destruct kropt as [|[|[|k]]]; [eexists; reflexivity..| |lia]. cbn. destruct (Rle_dec _ _); eexists; reflexivity. }
  cbn [bind Nat.eqb]. destruct (Req_EM_T 2 0); [lra|].
  assert (F : first_coefficient gam0 gam0 (-3) 2 = Err "ValueError"); [|now rewrite F].
  unfold first_coefficient. replace ((-3 + 1 + 2) / 2) with (IZR 0) by field. replace ((-3 + 1 - 2) / 2) with (IZR (-2)) by field.
  assert (N0 : negi (IZR 0) = true). { unfold negi. rewrite np_round_Z. destruct (Req_EM_T (IZR 0) (IZR 0)); [|contradiction]. destruct (Rle_dec (IZR 0) 0); [reflexivity|lra]. }
  assert (N2 : negi (IZR (-2)) = true). { unfold negi. rewrite np_round_Z. destruct (Req_EM_T (IZR (-2)) (IZR (-2))); [|contradiction]. destruct (Rle_dec (IZR (-2)) 0); [reflexivity|lra]. }
  rewrite N0, N2. cbn [orb andb]. unfold both_negi. destruct (Rlt_dec (IZR (-2)) (IZR 0)); [|lra]. rewrite <- minus_IZR, np_round_Z. reflexivity.
Qed.

(** ** The projection over redshift *)
Lemma bind_inv {A B} (m : res A) (f : A -> res B) r : bind m f = Ok r -> exists v, m = Ok v /\ f v = Ok r.
Proof. destruct m as [v|e]; [cbn; eauto|discriminate]. Qed.
Lemma collect_spec {A} n (f : nat -> res A) l : collect n f = Ok l <-> List.length l = n /\ forall i, (i < n)%nat -> exists v, f i = Ok v /\ nth_error l i = Some v.
Proof.
  revert l. induction n as [|n IH]; intros l; cbn [collect].
  - split; [intros H; injection H as <-; split; [reflexivity|intros i Hi; lia]|]. intros [L _]. destruct l; [reflexivity|discriminate].
  - split.
    + intros H. apply bind_inv in H as (l' & H1 & H). apply bind_inv in H as (v & H2 & H). injection H as <-. apply IH in H1 as [L N]. rewrite app_length. cbn. split; [lia|].
      intros i Hi. destruct (Nat.eq_dec i n) as [-> |NE].
      * exists v. split; [exact H2|]. rewrite nth_error_app2, L, Nat.sub_diag by lia. reflexivity.
      * destruct (N i ltac:(lia)) as (w & W & E). exists w. split; [exact W|]. now rewrite nth_error_app1 by lia.
    + intros [L N]. destruct (exists_last (l := l)) as (l' & v & ->); [destruct l; [discriminate|congruence]|]. rewrite app_length in L. cbn in L. assert (L' : List.length l' = n) by lia.
      assert (C : collect n f = Ok l').
      { apply IH. split; [exact L'|]. intros i Hi. destruct (N i ltac:(lia)) as (w & W & E). exists w. split; [exact W|]. rewrite nth_error_app1 in E by lia. exact E. }
      rewrite C. cbn [bind]. destruct (N n ltac:(lia)) as (w & W & E). rewrite nth_error_app2, L', Nat.sub_diag in E by lia. cbn in E. injection E as ->. rewrite W. reflexivity.
Qed.
Lemma transform_shape T n k p pts : transform T n k p = Ok pts -> List.length pts = List.length (kept T) /\ map fst pts = map (t_rp T) (kept T).
Proof.
  unfold transform. intros H. apply bind_inv in H as (o & _ & H). injection H as <-. rewrite map_length. split; [reflexivity|]. rewrite map_map. now apply map_ext.
Qed.
Theorem project_value T J rho sections ns r : project T J rho sections ns = Ok r ->
  exists nsv nb, ns = Some nsv /\ bin_count J = Some nb /\ (1 <= nb)%nat /\ fst r = map (t_rp T) (kept T) /\ List.length (snd r) = nb /\
    (String.eqb (j_type J) "ds" = true -> (1 <= fst rho)%nat /\ forall i, (i < fst rho)%nat -> snd rho i = snd rho 0%nat) /\
    forall i, (i < nb)%nat -> exists name s f rows, section_name J i = Some name /\ sections name = Some s /\ n_bin nsv (S i) = Some f /\ (1 <= s_nz s)%nat /\ List.length rows = s_nz s /\
      (forall j, (j < s_nz s)%nat -> transform T (s_nk s) (s_k s) (s_pk s j) = Ok (nth j rows [])) /\
      List.length (nth i (snd r) []) = List.length (fst r) /\
      forall x, (x < List.length (fst r))%nat -> nth x (nth i (snd r) []) 0 = scale_of (j_type J) rho * simpson (s_nz s) (fun j => load_kernel nsv f (s_z s j) * snd (nth x (nth j rows []) (0, 0))) (s_z s).
Proof.
  unfold project. intros H. apply bind_inv in H as (rv & HR & H). apply bind_inv in H as (nsv & HN & H). apply bind_inv in H as (nb & HB & H). apply bind_inv in H as (outs & HO & H).
  apply collect_spec in HO as [LO NO]. destruct (List.rev outs) as [|o t] eqn:RV; [discriminate|]. injection H as <-. cbn [fst snd].
  assert (NS : ns = Some nsv) by (destruct ns; [now injection HN as -> | discriminate]). subst ns.
  assert (BC : bin_count J = Some nb) by (unfold bin_count; destruct (j_suffixes J); [now injection HB as -> |]; destruct (j_nbin J); [now injection HB as -> | discriminate]).
  assert (NB : (1 <= nb)%nat) by (rewrite <- LO, <- rev_length, RV; cbn; lia).
  assert (SH : forall i v, one_bin T J rv sections nsv i = Ok v -> fst v = map (t_rp T) (kept T)).
  { intros i v E. unfold one_bin in E. apply bind_inv in E as (nm & _ & E). apply bind_inv in E as (s & _ & E). destruct (Nat.eqb _ 0); [discriminate|].
    apply bind_inv in E as (rows & _ & E). apply bind_inv in E as (f & _ & E). injection E as <-. reflexivity. }
  assert (RP : fst o = map (t_rp T) (kept T)).
  { assert (IN : In o outs) by (rewrite in_rev, RV; now left). apply In_nth_error in IN as [i IN]. assert (Hi : (i < nb)%nat) by (rewrite <- LO; apply nth_error_Some; congruence).
    destruct (NO i Hi) as (v & V & E). rewrite IN in E. injection E as ->. now apply (SH i). }
  exists nsv, nb. split; [reflexivity|]. split; [exact BC|]. split; [exact NB|]. split; [exact RP|]. split; [now rewrite map_length|]. split.
  - intros DS. unfold mean_density in HR. rewrite DS in HR. destruct (Nat.eqb_spec (fst rho) 0); [discriminate|]. destruct (forallb _ _) eqn:FA; [|discriminate]. split; [lia|].
    rewrite forallb_forall in FA. intros i Hi. specialize (FA i). rewrite in_seq in FA. specialize (FA ltac:(lia)). destruct (Req_EM_T _ _); [assumption|discriminate].
  - intros i Hi. destruct (NO i Hi) as (v & V & E). unfold one_bin in V. apply bind_inv in V as (nm & HNM & V). apply bind_inv in V as (s & HS & V).
    destruct (Nat.eqb_spec (s_nz s) 0) as [|NZ]; [discriminate|]. apply bind_inv in V as (rows & HRW & V). apply bind_inv in V as (f & HF & V).
    apply collect_spec in HRW as [LR NR]. exists nm, s, f, rows.
    split. { unfold section_name. destruct (j_suffixes J) as [l|]; [destruct (nth_error l i); [|discriminate]|]; injection HNM as <-; reflexivity. }
    split. { destruct (sections nm); [now injection HS as -> | discriminate]. }
    split. { destruct (n_bin nsv (S i)); [now injection HF as -> | discriminate]. }
    split; [lia|]. split; [exact LR|].
    split. { intros j Hj. destruct (NR j Hj) as (w & -> & W). f_equal. symmetry. now apply nth_error_nth. }
    assert (NTH : nth i (map snd outs) [] = snd v).
    { assert (nth_error (map snd outs) i = Some (snd v)) by now apply map_nth_error. now apply nth_error_nth. }
    rewrite NTH. injection V as <-. cbn [snd]. rewrite map_length, seq_length, RP, map_length. split; [reflexivity|]. intros x Hx.
    rewrite (nth_indep _ 0 ((fun x => if String.eqb (j_type J) "ds" then simpson (s_nz s) (fun j => load_kernel nsv f (s_z s j) * snd (nth x (nth j rows []) (0, 0)) * rv) (s_z s) / 10 ^ 12 else simpson (s_nz s) (fun j => load_kernel nsv f (s_z s j) * snd (nth x (nth j rows []) (0, 0)) * rv) (s_z s)) 0%nat)) by (rewrite map_length, seq_length; exact Hx).
    rewrite (map_nth (fun x => if String.eqb (j_type J) "ds" then simpson (s_nz s) (fun j => load_kernel nsv f (s_z s j) * snd (nth x (nth j rows []) (0, 0)) * rv) (s_z s) / 10 ^ 12 else simpson (s_nz s) (fun j => load_kernel nsv f (s_z s j) * snd (nth x (nth j rows []) (0, 0)) * rv) (s_z s))).
    rewrite seq_nth by exact Hx. cbn [Nat.add]. unfold scale_of.
    assert (SC : simpson (s_nz s) (fun j => load_kernel nsv f (s_z s j) * snd (nth x (nth j rows []) (0, 0)) * rv) (s_z s) = rv * simpson (s_nz s) (fun j => load_kernel nsv f (s_z s j) * snd (nth x (nth j rows []) (0, 0))) (s_z s)).
    { rewrite <- simpson_scal. apply simpson_ext; [lia| |reflexivity]. intros j _. ring. }
    rewrite SC. unfold mean_density in HR. destruct (String.eqb (j_type J) "ds").
    + assert (rv = snd rho 0%nat) as -> by (destruct (Nat.eqb (fst rho) 0); [discriminate|]; destruct (forallb _ _); [now injection HR as -> | discriminate]). unfold Rdiv. ring.
    + injection HR as <-. ring.
Qed.
