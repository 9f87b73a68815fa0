(** The transform in terms of the array that fhti returns. *)
From Coq Require Import ZArith Lia.
From Verif Require Import Base Spec BaseFacts FftModel FftSpec FftFacts FftFacts3 FftFacts5 FftFacts6 RsModel RsFacts RsFacts2.
Open Scope R_scope.
Section Gamma.
  Variables lgr lgi : R -> R -> R.
  Lemma negi_false x : (forall n : nat, x <> - INR n) -> negi x = false.
  Proof.
    intros H. unfold negi. destruct (Req_EM_T (IZR (np_round x)) x) as [E|]; [|reflexivity]. destruct (Rle_dec x 0) as [L|]; [|reflexivity]. exfalso.
    rewrite <- E in L. apply le_IZR in L. apply (H (Z.to_nat (- np_round x))). rewrite INR_IZR_INZ, Z2Nat.id by lia. rewrite opp_IZR. lra.
  Qed.
  Lemma coef_regular mu q : no_pole mu q -> real_axis lgi -> exists u, first_coefficient lgr lgi mu q = Ok u /\ u <> 0.
  Proof.
    intros NP RA. unfold first_coefficient. rewrite !negi_false by (intros n; apply (NP n)). cbn [orb]. eexists. split; [reflexivity|].
    destruct (RA ((mu + 1 + q) / 2)) as [z1 ->]. destruct (RA ((mu + 1 - q) / 2)) as [z2 ->]. rewrite <- Rmult_plus_distr_r, <- plus_IZR.
    apply Rmult_integral_contrapositive_currified; [apply Rgt_not_eq, exp_pos|]. destruct (cos_zpi (z1 + z2)) as [-> | ->]; lra.
  Qed.
  Lemma adjust_pos mu q dlnr kr0 kropt kr : 0 < kr0 -> dlnr <> 0 -> adjust_kr lgi mu q dlnr kr0 kropt = Ok kr -> 0 < kr.
  Proof.
    intros K D. destruct (krgood_spec lgi mu q dlnr kr0 K D) as (P & _). destruct kropt as [|[|[|k]]]; cbn; [|..|discriminate].
    - intros H. injection H as <-. exact K.
    - intros H. injection H as <-. exact P.
    - destruct (Rle_dec _ _); intros H; injection H as <-; assumption.
  Qed.
  Theorem fhti_ok n mu dlnr q kr0 kropt : (1 <= n)%nat -> (kropt <= 2)%nat -> q = 0 \/ no_pole mu q /\ real_axis lgi ->
    exists kr xs, fhti lgr lgi n mu dlnr q kr0 kropt = Ok (kr, xs) /\ forall i, (i < List.length xs)%nat -> exists v, nth_error xs i = Some (Some v).
  Proof.
    intros Hn Hk HQ. destruct (fhti_total lgr lgi n mu dlnr q kr0 kropt Hn Hk) as (kr & xs & E).
    { intros Q. destruct HQ as [|[NP RA]]; [contradiction|]. destruct (coef_regular mu q NP RA) as (u & U & _). eauto. }
    exists kr, xs. split; [exact E|]. intros i Hi. destruct (fhti_work _ _ _ _ _ _ _ _ _ _ E) as (_ & _ & W). destruct (work_full lgr lgi _ _ _ _ _ _ W i Hi) as (v & V).
    exists v. unfold xget in V. destruct (nth_error xs i) as [[w|]|]; try discriminate. now injection V as ->.
  Qed.
  Theorem never_fails n mu dlnr q kr0 kropt kr xs : fhti lgr lgi n mu dlnr q kr0 kropt = Ok (kr, xs) -> forall a rk dir, (dir = 1 \/ dir = -1)%Z ->
    (exists o, fht n a xs dir = Ok o) /\ (exists o, fhtq n a xs dir = Ok o) /\ (exists o, fftl n a xs rk dir = Ok o).
  Proof.
    intros E a rk dir Hd. destruct (fhti_work _ _ _ _ _ _ _ _ _ _ E) as (Hn & _ & W). split; [now apply (fht_total lgr lgi n mu dlnr q kr)|]. split; [now apply (fhtq_total lgr lgi n mu dlnr q kr)|].
    pose proof W as (W0 & W1 & W2 & _). unfold fftl. rewrite W0, W1, W2. cbn [bind]. match goal with |- context [fhtq n ?b xs dir] => destruct (fhtq_total lgr lgi n mu dlnr q kr xs b dir Hn W Hd) as (o & ->) end. cbn [bind]. eauto.
  Qed.
  Theorem linear n mu dlnr q kr0 kropt kr xs : fhti lgr lgi n mu dlnr q kr0 kropt = Ok (kr, xs) -> forall a b c d dir, (dir = 1 \/ dir = -1)%Z ->
    (forall oa ob oc, fht n a xs dir = Ok oa -> fht n b xs dir = Ok ob -> fht n (fun i => c * a i + d * b i) xs dir = Ok oc -> forall j, (j < n)%nat -> oc j = c * oa j + d * ob j) /\
    (forall oa ob oc, fhtq n a xs dir = Ok oa -> fhtq n b xs dir = Ok ob -> fhtq n (fun i => c * a i + d * b i) xs dir = Ok oc -> forall j, (j < n)%nat -> oc j = c * oa j + d * ob j).
  Proof.
    intros E a b c d dir Hd. destruct (fhti_work _ _ _ _ _ _ _ _ _ _ E) as (Hn & _ & W). split; intros oa ob oc; [now apply (fht_linear lgr lgi n mu dlnr q kr)|now apply (fhtq_linear lgr lgi n mu dlnr q kr)].
  Qed.
  Lemma inv_hyp n mu dlnr q kr : (q = 0 \/ no_pole mu q /\ real_axis lgi) -> (Nat.even n = true -> low_ringing lgi mu q dlnr kr) -> invertible lgr lgi n mu dlnr q kr.
  Proof.
    intros HQ LR. split.
    - intros Q. destruct HQ as [|[NP RA]]; [contradiction|]. destruct (coef_regular mu q NP RA) as (u & -> & U). congruence.
    - intros EV. destruct (LR EV) as [z ->]. destruct (cos_zpi z) as [-> | ->]; lra.
  Qed.
  Theorem inverse n mu dlnr q kr0 kropt kr xs : 0 < kr0 -> dlnr <> 0 -> q = 0 \/ no_pole mu q /\ real_axis lgi -> fhti lgr lgi n mu dlnr q kr0 kropt = Ok (kr, xs) ->
    (Nat.even n = true -> low_ringing lgi mu q dlnr kr) -> forall a dir dir', (dir = 1 /\ dir' = -1 \/ dir = -1 /\ dir' = 1)%Z ->
    (forall out back, fht n a xs dir = Ok out -> fht n out xs dir' = Ok back -> forall j, (j < n)%nat -> back j = a j) /\
    (forall out back, fhtq n a xs dir = Ok out -> fhtq n out xs dir' = Ok back -> forall j, (j < n)%nat -> back j = a j).
  Proof.
    intros K D HQ E LR a dir dir' Hd. destruct (fhti_work _ _ _ _ _ _ _ _ _ _ E) as (Hn & A & W). pose proof (adjust_pos _ _ _ _ _ _ K D A) as KP. pose proof (inv_hyp n mu dlnr q kr HQ LR) as I.
    split; intros out back; [now apply (fht_inverse lgr lgi n mu dlnr q kr)|now apply (fhtq_inverse lgr lgi n mu dlnr q kr)].
  Qed.
  Theorem fftl_trip n mu dlnr q kr0 kropt kr xs : 0 < kr0 -> dlnr <> 0 -> q = 0 \/ no_pole mu q /\ real_axis lgi -> fhti lgr lgi n mu dlnr q kr0 kropt = Ok (kr, xs) ->
    (Nat.even n = true -> low_ringing lgi mu q dlnr kr) -> forall a rk dir dir' out back, 0 < rk -> (dir = 1 /\ dir' = -1 \/ dir = -1 /\ dir' = 1)%Z ->
    fftl n a xs rk dir = Ok out -> fftl n (fun i => out i * log_grid n 1 (IZR dir * dlnr) i) xs rk dir' = Ok back -> forall j, (j < n)%nat -> back j = a j * log_grid n 1 (IZR dir * dlnr) j.
  Proof.
    intros K D HQ E LR a rk dir dir' out back RK Hd E1 E2 j Hj. destruct (fhti_work _ _ _ _ _ _ _ _ _ _ E) as (Hn & A & W). pose proof (adjust_pos _ _ _ _ _ _ K D A) as KP. pose proof (inv_hyp n mu dlnr q kr HQ LR) as I.
    assert (LG : forall i, log_grid n 1 (IZR dir * dlnr) i = exp (IZR dir * offset n dlnr i)) by (intros i; unfold log_grid, offset; rewrite Rmult_1_l; f_equal; ring).
    rewrite LG. destruct (never_fails n mu dlnr q kr0 kropt kr xs E (fun i => out i * exp (IZR dir * offset n dlnr i)) rk dir') as (_ & _ & b2 & E3); [lia|].
    assert (SAME : forall i, (i < n)%nat -> back i = b2 i).
    { destruct (fftl_fht lgr lgi n mu dlnr q kr xs (fun i => out i * log_grid n 1 (IZR dir * dlnr) i) rk dir' Hn RK W ltac:(lia)) as (o1 & h1 & F1 & G1 & V1). rewrite F1 in E2. injection E2 as ->.
      destruct (fftl_fht lgr lgi n mu dlnr q kr xs (fun i => out i * exp (IZR dir * offset n dlnr i)) rk dir' Hn RK W ltac:(lia)) as (o2 & h2 & F2 & G2 & V2). rewrite F2 in E3. injection E3 as ->.
      intros i Hi. rewrite V1, V2 by exact Hi. f_equal. refine (fht_ext lgr lgi n mu dlnr q kr xs _ _ dir' h1 h2 Hn W _ _ G1 G2 i Hi); [lia|]. intros l Hl. cbv beta. now rewrite LG. }
    rewrite SAME by exact Hj. now apply (fftl_round lgr lgi n mu dlnr q kr xs a rk dir dir' out b2).
  Qed.
  Theorem orthogonal n mu dlnr kr0 kropt kr xs : 0 < kr0 -> dlnr <> 0 -> fhti lgr lgi n mu dlnr 0 kr0 kropt = Ok (kr, xs) -> (Nat.even n = true -> low_ringing lgi mu 0 dlnr kr) ->
    forall a dir out, (dir = 1 \/ dir = -1)%Z -> fht n a xs dir = Ok out -> sumR n (fun j => out j * out j) = sumR n (fun j => a j * a j).
  Proof.
    intros K D E LR a dir out Hd F. destruct (fhti_work _ _ _ _ _ _ _ _ _ _ E) as (Hn & A & W). pose proof (adjust_pos _ _ _ _ _ _ K D A) as KP. now apply (fht_orthogonal lgr lgi n mu dlnr kr xs dir).
  Qed.
  Theorem modes n mu dlnr q kr0 kropt kr xs : 0 < kr0 -> dlnr <> 0 -> fhti lgr lgi n mu dlnr q kr0 kropt = Ok (kr, xs) -> forall rc dir m psi a out, 0 < rc -> (dir = 1 \/ dir = -1)%Z -> (1 <= m)%nat -> (2 * m < n)%nat ->
    let r := log_grid n rc dlnr in let k := log_grid n (kr / rc) dlnr in let y := mode_freq n dlnr m in
    (forall i, (i < n)%nat -> a i = Rpower (r i) (IZR dir * q) * cos (2 * y * ln (r i) + psi)) -> fht n a xs dir = Ok out -> forall j, (j < n)%nat ->
    out j = Rpower (k j) (- IZR dir * q) * (if Z.eqb dir 1 then bessel_gain lgr mu q y else / bessel_gain lgr mu q y) * cos (bessel_phase lgi mu q y + psi - 2 * y * ln (k j)).
  Proof.
    intros K D E rc dir m psi a out RC Hd Hm H2 r k y HA F j Hj. destruct (fhti_work _ _ _ _ _ _ _ _ _ _ E) as (Hn & A & W). pose proof (adjust_pos _ _ _ _ _ _ K D A) as KP.
    now apply (mode_exact lgr lgi n mu dlnr q kr rc xs dir m psi a out).
  Qed.
  Theorem powers n mu dlnr q kr0 kropt kr xs : 0 < kr0 -> dlnr <> 0 -> q = 0 \/ no_pole mu q /\ real_axis lgi -> fhti lgr lgi n mu dlnr q kr0 kropt = Ok (kr, xs) -> forall rc dir a out, 0 < rc -> (dir = 1 \/ dir = -1)%Z ->
    let r := log_grid n rc dlnr in let k := log_grid n (kr / rc) dlnr in let U := bessel_gain lgr mu q 0 * cos (bessel_phase lgi mu q 0) in
    (forall i, (i < n)%nat -> a i = Rpower (r i) (IZR dir * q)) -> fht n a xs dir = Ok out -> forall j, (j < n)%nat ->
    out j = Rpower (k j) (- IZR dir * q) * (if Req_EM_T q 0 then 1 else if Z.eqb dir 1 then U else / U).
  Proof.
    intros K D HQ E rc dir a out RC Hd r k U HA F j Hj. destruct (fhti_work _ _ _ _ _ _ _ _ _ _ E) as (Hn & A & W). pose proof (adjust_pos _ _ _ _ _ _ K D A) as KP.
    pose proof (power_exact lgr lgi n mu dlnr q kr rc xs dir a out Hn KP RC D W Hd HA F j Hj) as P. unfold k. rewrite P. f_equal. unfold zero_mode. destruct (Req_EM_T q 0) as [|Q]; [reflexivity|].
    destruct HQ as [|[NP RA]]; [contradiction|]. destruct (coef_regular mu q NP RA) as (u & FU & U0).
    assert (UE : u = U). { unfold first_coefficient in FU. rewrite !negi_false in FU by (intros l; apply (NP l)). cbn [orb] in FU. injection FU as <-. unfold U, bessel_gain, bessel_phase. f_equal. f_equal. ring. }
    rewrite FU, UE in *. destruct (Z.eqb dir 1); [reflexivity|]. destruct (Req_EM_T U 0); [contradiction|reflexivity].
  Qed.
  Theorem kernel n mu dlnr kr0 kropt kr xs : 0 < kr0 -> dlnr <> 0 -> fhti lgr lgi n mu dlnr 0 kr0 kropt = Ok (kr, xs) -> (Nat.even n = true -> low_ringing lgi mu 0 dlnr kr) ->
    forall rc dir a out, 0 < rc -> (dir = 1 \/ dir = -1)%Z -> fht n a xs dir = Ok out -> let r := log_grid n rc dlnr in let k := log_grid n (kr / rc) dlnr in
    forall j, (j < n)%nat -> out j = sumR n (fun i => a i * bessel_kernel lgi n mu dlnr (ln (r i * k j))).
  Proof.
    intros K D E LR rc dir a out RC Hd F r k j Hj. destruct (fhti_work _ _ _ _ _ _ _ _ _ _ E) as (Hn & A & W). pose proof (adjust_pos _ _ _ _ _ _ K D A) as KP. now apply (kernel_form lgr lgi n mu dlnr kr rc xs a dir out).
  Qed.
  Theorem kr_chosen n mu dlnr q kr0 kr xs : 0 < kr0 -> dlnr <> 0 -> fhti lgr lgi n mu dlnr q kr0 1 = Ok (kr, xs) -> 0 < kr /\ Rabs (ln kr - ln kr0) <= Rabs dlnr / 2 /\ low_ringing lgi mu q dlnr kr.
  Proof. intros K D E. destruct (fhti_work _ _ _ _ _ _ _ _ _ _ E) as (_ & A & _). cbn in A. injection A as <-. now apply krgood_spec. Qed.
  Theorem kr_kept n mu dlnr q kr0 kr xs : fhti lgr lgi n mu dlnr q kr0 0 = Ok (kr, xs) -> kr = kr0.
  Proof. intros E. destruct (fhti_work _ _ _ _ _ _ _ _ _ _ E) as (_ & A & _). cbn in A. now injection A as <-. Qed.
End Gamma.
