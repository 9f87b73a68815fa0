(** Background expansion and growth. *)
From Coquelicot Require Import Coquelicot.
From Verif Require Import Base Quad HmiModel HmiSpec.
Open Scope R_scope.

Lemma deriv_ext f g x l : (forall t, f t = g t) -> derivable_pt_lim f x l -> derivable_pt_lim g x l.
Proof.
  intros E D e He. destruct (D e He) as [dl Hd]. exists dl. intros h Hh Hl.
  rewrite <- !E. apply Hd; assumption.
Qed.

Lemma is_derive_lim f x l : is_derive f x l <-> derivable_pt_lim f x l.
Proof. apply is_derive_Reals. Qed.

(** *** Friedmann and acceleration equations *)
Lemma acceleration c a Om Ode Ok : dark_energy_law c -> 0 < a ->
  derivable_pt_lim (fun t => Hubble2 c t Om Ode Ok) a
    (2 * (AH c a Om Ode - Hubble2 c a Om Ode Ok) / a).
Proof.
  intros HD Ha. set (z := -1 + 1 / a).
  assert (Hz : -1 < z) by (unfold z; assert (0 < 1 / a) by (apply Rdiv_lt_0_compat; lra); lra).
  destruct (HD z Hz) as [_ Hd]. apply is_derive_lim in Hd. apply is_derive_lim.
  unfold Hubble2.
  evar (l : R). replace (2 * (AH c a Om Ode - (Om * / a ^ 3 + Ode * co_de c (-1 + 1 / a) + Ok * / a ^ 2)) / a)
    with l.
  - unfold l. apply (is_derive_plus (K := R_AbsRing) (V := R_NormedModule)
      (fun t => Om * / t ^ 3 + Ode * co_de c (-1 + 1 / t)) (fun t => Ok * / t ^ 2)).
    + apply (is_derive_plus (K := R_AbsRing) (V := R_NormedModule)
        (fun t => Om * / t ^ 3) (fun t => Ode * co_de c (-1 + 1 / t))).
      * auto_derive; [|reflexivity]. apply Rgt_not_eq. apply Rmult_lt_0_compat; [|apply Rmult_lt_0_compat]; lra.
      * apply (is_derive_scal (fun t => co_de c (-1 + 1 / t)) a Ode).
        apply (is_derive_comp (co_de c) (fun t => -1 + 1 / t) a).
        { exact Hd. }
        { auto_derive; [|reflexivity]. lra. }
    + auto_derive; [|reflexivity]. apply Rgt_not_eq. apply Rmult_lt_0_compat; lra.
  - unfold l, AH, plus, scal, mult; cbn -[pow]. fold z. unfold mult; cbn -[pow].
    assert (E : 1 + z = 1 / a) by (unfold z; lra). rewrite E. cbn [pow]. field. lra.
Qed.

Lemma cpl_law w0 wa Om Onu Om0 Onu0 Ok0 :
  dark_energy_law {| co_w := cpl_w w0 wa; co_de := cpl_de w0 wa; co_Om := Om; co_Onu := Onu;
                     co_Om0 := Om0; co_Onu0 := Onu0; co_Ok0 := Ok0 |}.
Proof.
  intros z Hz. cbn. split.
  - unfold cpl_de. apply Rmult_lt_0_compat; [|apply exp_pos]. unfold fpow.
    destruct (Rle_dec _ _); [lra|]. apply exp_pos.
  - apply is_derive_lim.
    apply (is_derive_ext_loc (fun t => exp (3 * (1 + w0 + wa) * ln (1 + t)) * exp (- 3 * wa * t / (1 + t)))).
    { assert (HP : 0 < z + 1) by lra. exists (mkposreal _ HP). intros t Ht.
      unfold ball in Ht; cbn in Ht; unfold AbsRing_ball, abs, minus, plus, opp in Ht; cbn in Ht.
      assert (0 < 1 + t) by (destruct (Rabs_def2 _ _ Ht); lra).
      unfold cpl_de, fpow. destruct (Rle_dec _ _); [lra|]. unfold Rpower. reflexivity. }
    auto_derive.
    + repeat split; lra.
    + unfold cpl_de, cpl_w, fpow. destruct (Rle_dec _ _); [lra|]. unfold Rpower.
      change (-3 * wa * z / (1 + z)) with (-3 * wa * z * / (1 + z)).
      set (E1 := exp (3 * _ * _)). set (E2 := exp (-3 * wa * z * _)). clearbody E1 E2. field. lra.
Qed.

(** *** Density parameters *)
Section Flat.
  Variable c : cosmo.
  Hypothesis HD : dark_energy_law c.
  Hypothesis HF : flat_universe c.
  Let Om := g_Om c.
  Let Ode := g_Ode c.
  Let Ok := g_Ok c.

  Lemma a_init_pos : 0 < g_a_init. Proof. unfold g_a_init. lra. Qed.

  Lemma z_pos a : 0 < a -> -1 < -1 + 1 / a.
  Proof. intros. assert (0 < 1 / a) by (apply Rdiv_lt_0_compat; lra). lra. Qed.

  Lemma z_nonneg a : 0 < a <= 1 -> 0 <= -1 + 1 / a.
  Proof.
    intros. assert (1 <= 1 / a); [|lra]. apply Rmult_le_reg_r with a; [lra|].
    replace (1 / a * a) with 1 by (field; lra). lra.
  Qed.

  Lemma a3_pos a : 0 < a -> 0 < / a ^ 3.
  Proof. intros. apply Rinv_0_lt_compat, pow_lt; assumption. Qed.

  Lemma hub_eq a : Hubble2 c a Om Ode Ok = Om * / a ^ 3 + Ode * co_de c (-1 + 1 / a).
  Proof. unfold Hubble2, Ok, g_Ok. destruct HF as [-> _]. ring. Qed.

  Lemma Ode_nonneg : 0 <= Ode.
  Proof. unfold Ode, g_Ode, g_Om. destruct HF as (_ & H & _). lra. Qed.
  Lemma Om_pos : 0 < Om.
  Proof. unfold Om, g_Om. destruct HF as (_ & H & _). lra. Qed.

  Lemma hub_pos a : 0 < a -> 0 < Hubble2 c a Om Ode Ok.
  Proof.
    intros Ha. rewrite hub_eq. apply Rplus_lt_le_0_compat.
    - apply Rmult_lt_0_compat; [apply Om_pos|apply a3_pos; assumption].
    - apply Rmult_le_pos; [apply Ode_nonneg|]. apply Rlt_le, HD, z_pos; assumption.
  Qed.

  Lemma omega_m_range a : 0 < a -> 0 < Omega_m c a Om Ode Ok <= 1.
  Proof.
    intros Ha. pose proof (hub_pos a Ha) as HP. unfold Omega_m. split.
    - apply Rdiv_lt_0_compat; [|exact HP]. apply Rmult_lt_0_compat; [apply Om_pos|apply a3_pos; assumption].
    - apply Rmult_le_reg_r with (Hubble2 c a Om Ode Ok); [exact HP|].
      replace (Om * / a ^ 3 / Hubble2 c a Om Ode Ok * Hubble2 c a Om Ode Ok) with (Om * / a ^ 3)
        by (field; split; [lra|apply Rgt_not_eq; assumption]).
      rewrite hub_eq.
      assert (0 <= Ode * co_de c (-1 + 1 / a)); [|lra].
      apply Rmult_le_pos; [apply Ode_nonneg|]. apply Rlt_le, HD, z_pos; assumption.
  Qed.

  Lemma today : Hubble2 c 1 Om Ode Ok = 1 /\ Omega_m c 1 Om Ode Ok = co_Om0 c + co_Onu0 c.
  Proof.
    assert (E : Hubble2 c 1 Om Ode Ok = 1).
    { rewrite hub_eq. replace (-1 + 1 / 1) with 0 by field. destruct HF as (_ & _ & -> & _).
      unfold Om, Ode, g_Ode. field. }
    split; [exact E|]. unfold Omega_m. rewrite E. unfold Om, g_Om. field.
  Qed.

  (** 2 + AH/H2 in terms of Omega_m and w. *)
  Lemma drag a : 0 < a ->
    2 + AH c a Om Ode / Hubble2 c a Om Ode Ok
    = 3/2 - 3/2 * co_w c (-1 + 1 / a) * (1 - Omega_m c a Om Ode Ok).
  Proof.
    intros Ha. pose proof (hub_pos a Ha) as HP. unfold Omega_m, AH.
    rewrite hub_eq in *. set (X := co_de c _) in *. set (w := co_w c _).
    pose proof (a3_pos a Ha) as H3. set (y := / a ^ 3) in *. field. lra.
  Qed.

  Lemma f_range : 0 <= g_f c < 1.
  Proof. pose proof (omega_m_range g_a_init a_init_pos). unfold g_f. fold Om Ode Ok. lra. Qed.

  Lemma d_init_pos : 0 < d_init c.
  Proof.
    unfold d_init, fpow. destruct (Rle_dec _ _) as [H|H].
    - pose proof a_init_pos. lra.
    - apply exp_pos.
  Qed.
  Lemma v_init_eq : g_a_init * v_init c = (1 - 3 * g_f c / 5) * d_init c.
  Proof.
    unfold v_init, d_init, fpow. destruct (Rle_dec _ _) as [H|H]; [pose proof a_init_pos; lra|].
    replace (Rpower g_a_init (1 - 3 * g_f c / 5)) with (g_a_init * Rpower g_a_init (- 3 * g_f c / 5)); [ring|].
    replace (1 - 3 * g_f c / 5) with (1 + - 3 * g_f c / 5) by field.
    rewrite Rpower_plus, Rpower_1; [ring|apply a_init_pos].
  Qed.
  Lemma v_init_pos : 0 < v_init c.
  Proof.
    pose proof f_range. pose proof d_init_pos. pose proof a_init_pos. pose proof v_init_eq.
    apply Rmult_lt_reg_l with g_a_init; [lra|]. rewrite Rmult_0_r, H2.
    apply Rmult_lt_0_compat; lra.
  Qed.
End Flat.
