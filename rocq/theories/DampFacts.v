(** The damping of the wiggles on a spectrum whose dispersion is known. *)
From Verif Require Import Base Spec Quad Interp HodModel HodSpec Dewiggle PkModel PkSpec BaseFacts QuadFacts
  InterpFacts NumFacts HodFacts HodFacts2 PkFacts PkFacts2 PkFacts3 PkFacts4 PkFacts5 PkFacts6 PkFacts7.
Open Scope R_scope.

Lemma dispersion nk k P c d : (3 <= nk)%nat -> 0 < d -> 0 <= c -> 0 < k 0%nat ->
  (forall i, (i < nk)%nat -> k i = k 0%nat * exp (INR i * d)) -> (forall i, (i < nk)%nat -> k i * P i = c) ->
  sigmaV nk k P * sigmaV nk k P = c * ln (k (nk - 1)%nat / k 0%nat) / (6 * (PI * PI)).
Proof.
  intros Hn Hd Hc Hk Hg HP.
  assert (R : forall i, (i < nk)%nat -> ln (k i / k 0%nat) = INR i * d).
  { intros i Hi. rewrite (Hg i Hi). replace (k 0%nat * exp (INR i * d) / k 0%nat) with (exp (INR i * d)) by (field; lra). apply ln_exp. }
  unfold sigmaV. rewrite (R 1%nat ltac:(lia)), (R (nk - 1)%nat ltac:(lia)). replace (INR 1 * d) with d by (simpl; ring).
  assert (E : simpson nk (fun i => P i * k i) (fun i => INR i * d) = c * (INR (nk - 1) * d)).
  { rewrite (simpson_ext nk _ (fun i => c + 0 * (INR i * d) + 0 * (INR i * d) ^ 2) _ (fun i => INR i * d)); [| lia | | auto].
    - rewrite (simpson_exact nk c 0 0 (fun i => INR i * d)); [| lia |].
      + unfold prim2. change (INR 0) with 0. unfold Rdiv. ring.
      + intros i Hi. rewrite S_INR. nra.
    - intros i Hi. rewrite Rmult_comm, (HP i Hi). ring. }
  pose proof PI_RGT_0 as Hpi. assert (Q : 0 < PI * PI) by nra.
  rewrite E, sqrt_sqrt; [field; lra |].
  pose proof (pos_INR (nk - 1)) as N.
  assert (0 < / (PI * PI)) by now apply Rinv_0_lt_compat.
  assert (0 <= c * (INR (nk - 1) * d)) by (apply Rmult_le_pos; [lra |]; apply Rmult_le_pos; lra).
  unfold Rdiv. rewrite Rmult_assoc, Rmult_assoc. repeat apply Rmult_le_pos; lra.
Qed.

Lemma lin_damped S a (c : nat -> R) d : s_plin S = Some a -> s_dewiggle S = true -> (3 <= s_nk S)%nat -> fits S a ->
  0 < d -> 0 < s_kvec S 0 -> (forall i, (i < s_nk S)%nat -> s_kvec S i = s_kvec S 0 * exp (INR i * d)) ->
  (forall z, 0 <= c z) -> (forall z i, (i < s_nk S)%nat -> s_kvec S i * a_val a z i = c z) ->
  exists pl, pk_lin S = Ok pl /\ forall z k, (k < s_nk S)%nat ->
    pl z k = a_val a z k
      - (1 - exp (- (s_kvec S k ^ 2 * (c z * ln (s_kvec S (s_nk S - 1) / s_kvec S 0) / (6 * (PI * PI))))))
        * pk_wiggle (s_nk S) (s_kvec S) (a_val a z) (s_ns S) (s_lnt S) k.
Proof.
  intros Hp Hd Hk [Hr Hc] Hd0 Hk0 Hg Hc0 HP. unfold pk_lin, raw_plin, dewiggled. rewrite Hp, Hd, Bool.orb_true_r, guard_passes by lia.
  cbn [bind]. unfold bcast. rewrite Hc, Nat.eqb_refl. cbn [bind a_rows a_cols a_val]. rewrite Hr, !Nat.eqb_refl. cbn [andb].
  eexists. split; [reflexivity|]. intros z k Hlt.
  assert (E : Nat.eqb (s_nk S) 1 = false) by (apply Nat.eqb_neq; lia). cbv beta. rewrite E.
  unfold dewiggle_plin. rewrite <- (dispersion (s_nk S) (s_kvec S) (a_val a z) (c z) d Hk Hd0 (Hc0 z) Hk0 Hg (HP z)).
  match goal with |- _ = ?x - (1 - exp ?u) * ?w => match goal with |- _ - (1 - exp ?v) * _ = _ => replace u with v end end;
    [reflexivity|].
  change (fun k : nat => a_val a z k) with (a_val a z). ring.
Qed.
