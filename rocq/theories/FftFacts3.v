(** Proofs about pyfftlog: closed form of fhtq. *)
From Coq Require Import ZArith Lia.
From Verif Require Import Base QuadFacts FftModel FftFacts FftFacts2.
Open Scope R_scope.

Lemma lays_ext n f z0 re im last z0' re' im' last' : lays n f z0 re im last -> z0 = z0' -> (forall m, re m = re' m) -> (forall m, im m = im' m) ->
  (Nat.even n = true -> last = last') -> lays n f z0' re' im' last'.
Proof.
  intros (H0 & H1 & H2) <- A B C. split; [exact H0|]. split.
  - intros m Hm. destruct (H1 m Hm). rewrite <- A, <- B. now split.
  - intros E. rewrite <- C by exact E. now apply H2.
Qed.
Lemma xread_ok xs idx ms : (forall m, In m ms -> exists v, xget xs (idx m) = Ok v) ->
  xread xs idx ms = Ok (fun m => match xget xs (idx m) with Ok v => v | Err _ => 0 end).
Proof.
  intros H. unfold xread. rewrite (proj2 (forallb_forall _ _)).
  - rewrite (proj2 (forallb_forall _ _)); [reflexivity|]. intros m Hm. destruct (H m Hm) as [v ->]. reflexivity.
  - intros m Hm. apply Nat.ltb_lt. destruct (H m Hm) as [v E]. unfold xget in E. apply nth_error_Some. destruct (nth_error xs (idx m)); [discriminate|discriminate E].
Qed.
Lemma rotate_ext n f ms c c' s s' : (forall m, In m ms -> c m = c' m /\ s m = s' m) -> rotate n f ms c s = rotate n f ms c' s'.
Proof.
  intros H. unfold rotate, fread, fwrite. destruct (forallb _ ms); [|reflexivity]. cbn [bind]. destruct (forallb _ ms); [|reflexivity]. cbn [bind].
  assert (G : forall (idx : nat -> nat) v v' (g : A1), (forall m, In m ms -> v m = v' m) -> fold_left (fun g m => upd g (idx m) (v m)) ms g = fold_left (fun g m => upd g (idx m) (v' m)) ms g).
  { clear H. intros idx v v'. induction ms as [|m ms IH]; intros g E; [reflexivity|]. cbn. rewrite (E m) by (now left). apply IH. intros x Hx. apply E. now right. }
  f_equal. rewrite (G _ _ (fun m => f (2 * m - 1)%nat * s' m + f (2 * m)%nat * c' m)) by (intros m Hm; destruct (H m Hm) as [-> ->]; reflexivity).
  f_equal. apply G. intros m Hm. destruct (H m Hm) as [-> ->]. reflexivity.
Qed.

Section Gamma.
  Variables lgr lgi : R -> R -> R.
  Definition dirg (dir : Z) (x : R) : R := if Z.eqb dir 1 then x else / x.
  Definition zero_mode (mu q : R) (dir : Z) : R :=
    if Req_EM_T q 0 then 1 else match first_coefficient lgr lgi mu q with Ok u => if Z.eqb dir 1 then u else if Req_EM_T u 0 then 0 else / u | Err _ => 0 end.
  Definition kernel_of (n : nat) (mu dlnr q kr : R) (dir : Z) (d : R) : R :=
    kap n (zero_mode mu q dir) (fun m => dirg dir (xsave_amp lgr mu q (freq n dlnr m))) (fun m => xsave_arg lgi mu q kr (freq n dlnr m))
      (dirg dir (cos (xsave_arg lgi mu q kr (freq n dlnr (n / 2))) * xsave_amp lgr mu q (freq n dlnr (n / 2)))) d.
  Lemma amp_zero mu y : xsave_amp lgr mu 0 y = 1.
  Proof. unfold xsave_amp. rewrite Rplus_0_r, Rminus_0_r. replace (ln 2 * 0 + lgr ((mu + 1) / 2) y - lgr ((mu + 1) / 2) y) with 0 by ring. apply exp_0. Qed.

  Lemma even_mod n : Nat.eqb (n mod 2) 0 = Nat.even n.
  Proof.
    destruct (Nat.even n) eqn:E.
    - apply Nat.even_spec in E as [h ->]. rewrite Nat.mul_comm, Nat.mod_mul by lia. reflexivity.
    - destruct (odd_half n E) as (h & -> & _). replace (2 * h + 1)%nat with (1 + h * 2)%nat by lia. rewrite Nat.mod_add by lia. reflexivity.
  Qed.
  Lemma half_le n : ((n - 1) / 2 <= n / 2)%nat. Proof. apply Nat.div_le_mono; lia. Qed.

  Theorem fhtq_closed n mu dlnr q kr xs a dir : (1 <= n)%nat -> work lgr lgi n mu dlnr q kr xs -> (dir = 1 \/ dir = -1)%Z ->
    exists out, fhtq n a xs dir = Ok out /\ forall j, (j < n)%nat -> out j = sumR n (fun i => a i * kernel_of n mu dlnr q kr dir (INR (n - 1 - j) - INR i)).
  Proof.
    intros Hn (W0 & W1 & W2 & WA & WB) Hd. unfold fhtq. rewrite W0. cbn [bind]. rewrite arange_half_seq, even_mod.
    set (AR := fun m => xsave_arg lgi mu q kr (freq n dlnr m)). set (AM := fun m => xsave_amp lgr mu q (freq n dlnr m)).
    assert (IN : forall m, In m (seq 1 ((n - 1) / 2)) -> (1 <= m <= n / 2)%nat) by (intros m H; apply in_seq in H; pose proof (half_le n); lia).
    pose proof (rfft_lays n a Hn) as L0. destruct (Req_EM_T q 0) as [Q|Q].
    - destruct (WA Q) as [LX W]. clear WA WB.
      rewrite !xread_ok by (intros m H; destruct (W m (IN m H)); eauto). cbn [bind].
      rewrite (rotate_ext _ _ _ _ (fun m => cos (AR m)) _ (fun m => sin (AR m))) by (intros m H; destruct (W m (IN m H)) as [-> ->]; split; reflexivity).
      destruct (rotate_lays n _ _ _ _ _ (fun m => cos (AR m)) (fun m => sin (AR m)) Hn L0) as (g & -> & L1). cbn [bind].
      assert (A1 : forall m, AM m = 1) by (intros m; unfold AM; rewrite Q; apply amp_zero).
      assert (D1 : dirg dir 1 = 1) by (unfold dirg; destruct (Z.eqb dir 1); [reflexivity|apply Rinv_1]).
      assert (K : exists g', (if Nat.even n then bind (xget_back xs 2) (fun ar => Ok (last_element n g ar dir)) else Ok g) = Ok g' /\
        lays n g' (zero_mode mu q dir * sumR n a)
          (fun m => dirg dir (AM m) * (sumR n (fun j => a j * cos (2 * PI * INR m * INR j / INR n)) * cos (AR m) + sumR n (fun j => a j * sin (2 * PI * INR m * INR j / INR n)) * sin (AR m)))
          (fun m => dirg dir (AM m) * (sumR n (fun j => a j * cos (2 * PI * INR m * INR j / INR n)) * sin (AR m) - sumR n (fun j => a j * sin (2 * PI * INR m * INR j / INR n)) * cos (AR m)))
          (dirg dir (cos (AR (n / 2)%nat) * AM (n / 2)%nat) * sumR n (fun j => a j * cos (PI * INR j)))).
      { assert (Z1 : zero_mode mu q dir = 1) by (unfold zero_mode; destruct (Req_EM_T q 0); [reflexivity|contradiction]).
        destruct (Nat.even n) eqn:E.
        - destruct (half_even' n Hn E) as (h & A & B & C & D). unfold xget_back. rewrite LX. destruct (Nat.leb_spec 2 (2 * (n / 2) + 3)); [|lia].
          replace (2 * (n / 2) + 3 - 2)%nat with (2 * (n / 2) + 1)%nat by lia. destruct (W (n / 2)%nat) as [-> _]; [lia|]. cbn [bind].
          eexists. split; [reflexivity|].
          eapply last_lays with (tdir := dir) (ar := cos (AR (n / 2)%nat)) in L1; [|lia|exact E|reflexivity].
          eapply lays_ext; [exact L1|rewrite Z1; ring|intros m; rewrite A1, D1; ring|intros m; rewrite A1, D1; ring|].
          intros _. rewrite A1, Rmult_1_r. unfold dirg. destruct Hd as [-> | ->]; cbn; unfold Rdiv; ring.
        - eexists. split; [reflexivity|]. eapply lays_ext; [exact L1|rewrite Z1; ring|intros m; rewrite A1, D1; ring|intros m; rewrite A1, D1; ring|congruence]. }
      destruct K as (g' & -> & L2). cbn [bind]. eexists. split; [reflexivity|]. intros j Hj. cbv beta.
      rewrite (irfft_kap n a _ (fun m => dirg dir (AM m)) AR _ g' (n - 1 - j) Hn L2). reflexivity.
    - destruct (WB Q) as (LX & (u0 & FC & U0) & W). clear WA WB.
      rewrite !(xread_ok xs (fun m => 3 * m + 2)%nat) by (intros m H; destruct (W m (IN m H)) as (? & ? & ?); eauto).
      rewrite !(xread_ok xs (fun m => 3 * m + 3)%nat) by (intros m H; destruct (W m (IN m H)) as (? & ? & ?); eauto). cbn [bind].
      rewrite (rotate_ext _ _ _ _ (fun m => cos (AR m)) _ (fun m => sin (AR m))) by (intros m H; destruct (W m (IN m H)) as (_ & -> & ->); split; reflexivity).
      destruct (rotate_lays n _ _ _ _ _ (fun m => cos (AR m)) (fun m => sin (AR m)) Hn L0) as (g & -> & L1). cbn [bind].
      rewrite !U0. cbn [bind]. rewrite !(xread_ok xs (fun m => 3 * m + 1)%nat) by (intros m H; destruct (W m (IN m H)) as (? & ? & ?); eauto). cbn [bind].
      assert (Z1 : zero_mode mu q dir = if Z.eqb dir 1 then u0 else if Req_EM_T u0 0 then 0 else / u0).
      { unfold zero_mode. destruct (Req_EM_T q 0); [contradiction|]. now rewrite FC. }
      set (am := fun m => match xget xs (3 * m + 1) with Ok v => v | Err _ => 0 end).
      assert (AMm : forall m, (1 <= m <= n / 2)%nat -> am m = AM m) by (intros m H; unfold am; destruct (W m H) as (-> & _ & _); reflexivity).
      set (re2 := fun m => dirg dir (am m) * (sumR n (fun j => a j * cos (2 * PI * INR m * INR j / INR n)) * cos (AR m) + sumR n (fun j => a j * sin (2 * PI * INR m * INR j / INR n)) * sin (AR m))).
      set (im2 := fun m => dirg dir (am m) * (sumR n (fun j => a j * cos (2 * PI * INR m * INR j / INR n)) * sin (AR m) - sumR n (fun j => a j * sin (2 * PI * INR m * INR j / INR n)) * cos (AR m))).
      match goal with |- context [bind (if Z.eqb dir 1 then ?A else ?B) _] => assert (K : exists g1, (if Z.eqb dir 1 then A else B) = Ok g1 /\
        lays n g1 (zero_mode mu q dir * sumR n a) re2 im2 (if Nat.eqb n 1 then zero_mode mu q dir * sumR n a else sumR n (fun j => a j * cos (PI * INR j)))) end.
      { destruct Hd as [-> | ->]; rewrite Z1; cbn [Z.eqb Pos.eqb].
        - destruct (gain_lays n g _ _ _ _ Rmult am (g 0%nat * u0) Hn L1) as (g1 & E1 & L2). exists g1. split; [exact E1|].
          eapply lays_ext; [exact L2| | | |].
          + destruct L1 as [-> _]. ring.
          + intros m. unfold re2, dirg. cbn. ring.
          + intros m. unfold im2, dirg. cbn. ring.
          + intros _. destruct (Nat.eqb n 1); [destruct L1 as [-> _]; ring|reflexivity].
        - destruct (gain_lays n g _ _ _ _ Rdiv am (if Req_EM_T u0 0 then 0 else g 0%nat / u0) Hn L1) as (g1 & E1 & L2). exists g1. split; [exact E1|].
          eapply lays_ext; [exact L2| | | |].
          + destruct L1 as [-> _]. destruct (Req_EM_T u0 0); unfold Rdiv; ring.
          + intros m. unfold re2, dirg. cbn. unfold Rdiv. ring.
          + intros m. unfold im2, dirg. cbn. unfold Rdiv. ring.
          + intros _. destruct (Nat.eqb n 1); [destruct L1 as [-> _]; destruct (Req_EM_T u0 0); unfold Rdiv; ring|reflexivity]. }
      destruct K as (g1 & -> & L2). cbn [bind].
      assert (K : exists g', (if Nat.even n then bind (xget xs (3 * (n / 2) + 2)) (fun c => bind (xget xs (3 * (n / 2) + 1)) (fun am => Ok (last_element n g1 (c * am) dir))) else Ok g1) = Ok g' /\
        lays n g' (zero_mode mu q dir * sumR n a) re2 im2
          (dirg dir (cos (AR (n / 2)%nat) * AM (n / 2)%nat) * sumR n (fun j => a j * cos (PI * INR j)))).
      { destruct (Nat.even n) eqn:E.
        - destruct (half_even' n Hn E) as (h & A & B & C & D). destruct (W (n / 2)%nat) as (-> & -> & _); [lia|]. cbn [bind].
          eexists. split; [reflexivity|]. destruct (Nat.eqb_spec n 1); [lia|].
          eapply last_lays with (tdir := dir) in L2; [exact L2|lia|exact E|]. unfold dirg. fold (AR (n / 2)%nat). fold (AM (n / 2)%nat).
          destruct Hd as [-> | ->]; cbn; unfold Rdiv; ring.
        - eexists. split; [reflexivity|]. eapply lays_ext; [exact L2|reflexivity|reflexivity|reflexivity|congruence]. }
      destruct K as (g' & -> & L3). cbn [bind]. eexists. split; [reflexivity|]. intros j Hj. cbv beta.
      rewrite (irfft_kap n a _ (fun m => dirg dir (am m)) AR _ g' (n - 1 - j) Hn L3). apply sumR_ext. intros i _. f_equal.
      unfold kernel_of, kap. fold (AM (n / 2)%nat). fold (AR (n / 2)%nat). do 4 f_equal. apply sumR_ext. intros k Hk. cbv beta. fold (AM (S k)). fold (AR (S k)).
      rewrite AMm; [reflexivity|]. pose proof (half_le n). lia.
  Qed.
End Gamma.
