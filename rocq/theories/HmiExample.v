(** Concrete cases for C72-C80. *)
From Coquelicot Require Import Coquelicot.
From Verif Require Import Base Quad HmiModel HmiSpec HmiFacts HmiFacts2 HmiFacts3 HmiFacts5.
Open Scope R_scope.

(** A flat cosmology with constant w = w0 and total matter [om]. *)
Definition ex_cosmo (w0 om onu : R) : cosmo :=
  {| co_w := cpl_w w0 0; co_de := cpl_de w0 0; co_Om := fun _ => om; co_Onu := fun _ => onu;
     co_Om0 := om; co_Onu0 := onu; co_Ok0 := 0 |}.

Lemma ex_de_0 w0 : cpl_de w0 0 0 = 1.
Proof.
  unfold cpl_de, fpow. destruct (Rle_dec _ _); [lra|]. replace (1 + 0) with 1 by ring.
  unfold Rpower. rewrite ln_1, Rmult_0_r, exp_0. replace (-3 * 0 * 0 / 1) with 0 by field. rewrite exp_0. ring.
Qed.

Lemma ex_flat w0 om onu : w0 <= 1 -> 0 < om + onu <= 1 -> flat_universe (ex_cosmo w0 om onu).
Proof.
  intros Hw Ho. split; [reflexivity|]. split; [exact Ho|]. split; [apply ex_de_0|].
  intros z Hz. cbn. unfold cpl_w. replace (0 * z / (1 + z)) with 0 by (field; lra). lra.
Qed.
Lemma ex_law w0 om onu : dark_energy_law (ex_cosmo w0 om onu).
Proof. apply cpl_law. Qed.

(** Two thirds of the density in an unclustered component with w = 0: an exact
    growing solution, sqrt(a) and 1/a being the two modes. *)
Definition ex_c := ex_cosmo 0 (1/3) 0.
Definition ex_d0 := d_init ex_c.
Definition ex_d (a : R) : R := ex_d0 * (16/15 * sqrt (a / g_a_init) - 1/15 * (g_a_init / a)).
Definition ex_v (a : R) : R := ex_d0 * (8/15 * sqrt (a / g_a_init) / a + 1/15 * (g_a_init / a ^ 2)).

Lemma ex_de a : 0 < a -> cpl_de 0 0 (-1 + 1 / a) = / a ^ 3.
Proof.
  intros Ha. unfold cpl_de. replace (1 + (-1 + 1 / a)) with (/ a) by (field; lra).
  replace (-3 * 0 * (-1 + 1 / a) / / a) with 0 by (field; lra). rewrite exp_0, Rmult_1_r.
  replace (3 * (1 + 0 + 0)) with (INR 3) by (cbn; ring).
  unfold fpow. pose proof (Rinv_0_lt_compat a Ha). destruct (Rle_dec _ _); [lra|].
  rewrite Rpower_pow by assumption. rewrite pow_inv. reflexivity.
Qed.

Lemma ex_H a : 0 < a -> Hubble2 ex_c a (g_Om ex_c) (g_Ode ex_c) (g_Ok ex_c) = / a ^ 3.
Proof.
  intros Ha. unfold Hubble2, g_Ode, g_Om, g_Ok. cbn -[pow cpl_de]. rewrite (ex_de a Ha). field. lra.
Qed.
Lemma ex_Om a : 0 < a -> Omega_m ex_c a (g_Om ex_c) (g_Ode ex_c) (g_Ok ex_c) = 1/3.
Proof. intros Ha. unfold Omega_m. rewrite (ex_H a Ha). unfold g_Om; cbn -[pow]. field. lra. Qed.
Lemma ex_AH a : 0 < a -> AH ex_c a (g_Om ex_c) (g_Ode ex_c) = - (1/2) * / a ^ 3.
Proof.
  intros Ha. unfold AH, g_Ode, g_Om. cbn -[pow cpl_de cpl_w]. rewrite (ex_de a Ha).
  unfold cpl_w. replace (1 + (-1 + 1 / a)) with (/ a) by (field; lra).
  pose proof (Rinv_0_lt_compat a Ha). field. lra.
Qed.
Lemma ex_f : g_f ex_c = 2/3.
Proof. unfold g_f. rewrite (ex_Om _ a_init_pos). field. Qed.

Lemma ex_sqrt_der a : 0 < a -> is_derive (fun t => sqrt (t / g_a_init)) a (sqrt (a / g_a_init) / (2 * a)).
Proof.
  intros Ha. pose proof a_init_pos as P. assert (Q : 0 < a / g_a_init) by (apply Rdiv_lt_0_compat; lra).
  auto_derive; [exact Q|]. fold (a / g_a_init). pose proof (sqrt_lt_R0 _ Q) as S.
  set (s := sqrt (a / g_a_init)) in *.
  assert (E : s * s = a / g_a_init) by (apply sqrt_sqrt; lra).
  replace (1 * / g_a_init * / (2 * s)) with (/ (2 * g_a_init * s)) by (field; lra).
  assert (Ea : a = s * s * g_a_init) by (rewrite E; field; lra).
  rewrite Ea. field. lra.
Qed.

Lemma ex_solves : solves_growth ex_c ex_d ex_v.
Proof.
  pose proof a_init_pos as P. split; [|split].
  - unfold ex_d. replace (g_a_init / g_a_init) with 1 by (field; lra). rewrite sqrt_1. unfold ex_d0. field.
  - unfold ex_v. replace (g_a_init / g_a_init) with 1 by (field; lra). rewrite sqrt_1.
    apply Rmult_eq_reg_l with g_a_init; [|lra]. rewrite v_init_eq, ex_f. unfold ex_d0. field. lra.
  - intros a [Ha1 Ha2]. assert (Ha : 0 < a) by lra. unfold growth_rhs. cbn [fst snd].
    rewrite (ex_AH a Ha), (ex_H a Ha), (ex_Om a Ha).
    pose proof (ex_sqrt_der a Ha) as D.
    set (s := fun t => sqrt (t / g_a_init)) in *.
    assert (Es : sqrt (a / g_a_init) = s a) by reflexivity.
    split; apply is_derive_lim.
    + apply (is_derive_ext (fun t => ex_d0 * (16/15 * s t - 1/15 * (g_a_init / t)))); [reflexivity|].
      evar (l : R). replace (ex_v a) with l.
      * unfold l. apply (is_derive_scal (fun t => 16/15 * s t - 1/15 * (g_a_init / t)) a ex_d0).
        apply (is_derive_minus (K := R_AbsRing) (V := R_NormedModule) (fun t => 16/15 * s t) (fun t => 1/15 * (g_a_init / t))).
        -- apply (is_derive_scal s a (16/15)). exact D.
        -- auto_derive; [lra|reflexivity].
      * unfold l, ex_v, minus, plus, opp, scal; cbn. unfold mult; cbn. rewrite Es. field. lra.
    + apply (is_derive_ext (fun t => ex_d0 * (8/15 * (s t / t) + 1/15 * (g_a_init / t ^ 2)))).
      { intros t. unfold ex_v. fold (s t). match goal with |- ?a = ?b => change (@eq R a b) end. unfold Rdiv. ring. }
      evar (l : R). replace (_ + _) with l.
      * unfold l. apply (is_derive_scal (fun t => 8/15 * (s t / t) + 1/15 * (g_a_init / t ^ 2)) a ex_d0).
        apply (is_derive_plus (K := R_AbsRing) (V := R_NormedModule) (fun t => 8/15 * (s t / t)) (fun t => 1/15 * (g_a_init / t ^ 2))).
        -- apply (is_derive_scal (fun t => s t / t) a (8/15)).
           apply (is_derive_div s (fun t => t) a (sqrt (a / g_a_init) / (2 * a)) 1); [exact D|apply is_derive_lim, derivable_pt_lim_id|lra].
        -- auto_derive; [|reflexivity]. apply Rgt_not_eq, Rmult_lt_0_compat; lra.
      * unfold l, ex_v, ex_d, plus, scal; cbn -[pow]. unfold mult; cbn -[pow]. rewrite Es. cbn [pow]. field. lra.
Qed.

(** Einstein-de Sitter, with and without neutrinos. *)
Definition ex_eds := ex_cosmo (-1) (99/100) (1/100).
Lemma ex_eds_solves : solves_growth ex_eds (fun a => a) (fun _ => 1).
Proof.
  pose proof a_init_pos as P.
  assert (HF : flat_universe ex_eds) by (apply ex_flat; lra).
  assert (EO : forall a, 0 < a -> Omega_m ex_eds a (g_Om ex_eds) (g_Ode ex_eds) (g_Ok ex_eds) = 1).
  { intros a Ha. unfold Omega_m. rewrite (hub_eq _ HF). unfold g_Ode, g_Om; cbn -[pow cpl_de].
    replace (99/100 + 1/100) with 1 by field.
    replace (1 * / a ^ 3 + (1 - 1) * cpl_de (-1) 0 (-1 + 1 / a)) with (1 * / a ^ 3) by ring. field. lra. }
  assert (Ef : g_f ex_eds = 0) by (unfold g_f; rewrite EO by assumption; ring).
  split; [|split].
  - unfold d_init. rewrite Ef. unfold fpow. destruct (Rle_dec _ _); [lra|].
    replace (1 - 3 * 0 / 5) with 1 by field. symmetry. apply Rpower_1; assumption.
  - apply Rmult_eq_reg_l with g_a_init; [|lra]. rewrite v_init_eq, Ef. unfold d_init. rewrite Ef.
    unfold fpow. destruct (Rle_dec _ _); [lra|]. replace (1 - 3 * 0 / 5) with 1 by field.
    rewrite Rpower_1 by assumption. ring.
  - intros a [Ha1 Ha2]. assert (Ha : 0 < a) by lra. unfold growth_rhs. cbn [fst snd].
    split; [apply derivable_pt_lim_id|].
    pose proof (drag ex_eds (ex_law _ _ _) HF a Ha) as Dr. cbv zeta in Dr.
    rewrite Dr, (EO a Ha).
    match goal with |- derivable_pt_lim _ _ ?l => replace l with 0 by (field; lra) end.
    apply derivable_pt_lim_const.
Qed.

(** Ingredients: two redshifts, different satellites. *)
Definition ex_hmi (i : ingr) (mdef : string) : hmi :=
  {| hi_ingr := i; hi_z := [0; 1]; hi_mdef := mdef; hi_hmf := "Tinker10"; hi_bias := "Tinker10";
     hi_prof_dm := "NFW"; hi_prof_sat := "NFWx"; hi_conc_dm := "Duffy08"; hi_conc_sat := "Ludlow16";
     hi_norm_cen := [1]; hi_norm_sat := [1; 2]; hi_eta_cen := [0]; hi_eta_sat := [1/10; 2/10];
     hi_overdensity := 200; hi_delta_c := 1686/1000; hi_log10T := 78/10;
     hi_cosmo := ex_eds; hi_growth := scale_factor; hi_Growth := scale_factor |}.
Definition ex_s8 (x : hpar) : R := 8/10 / (1 + hp_z x).
Definition ex_mset (m m' : string) (d : dict) : dict := if String.eqb m m' then d else [].

Lemma ex_mset_law : model_law ex_mset.
Proof. intros m d. unfold ex_mset. rewrite String.eqb_refl. reflexivity. Qed.
Lemma ex_s8_law : sigma8_law ex_s8.
Proof. intros x x' E _ _ _ _ _ _. unfold ex_s8. rewrite E. reflexivity. Qed.
Lemma ex_shapes i m : shapes_ok (ex_hmi i m).
Proof. cbv [shapes_ok shape_ok ex_hmi]; cbn. intuition. Qed.

(** Growth g(a) = a and its root finder. *)
Definition ex_root (f : R -> R) : option R :=
  let c := - f 0 in
  if Rle_dec (1/1000) c then if Rle_dec c 1 then Some c else None else None.
Lemma ex_root_law : root_law ex_root (fun a => a).
Proof.
  intros fac. unfold ex_root. replace (- (0 - fac)) with fac by ring.
  destruct (Rle_dec (1/1000) fac) as [L|L]; [destruct (Rle_dec fac 1) as [U|U]|].
  - split; [intros r E; injection E as <-; lra|]. split; [discriminate|lra].
  - split; [discriminate|]. split; [lra|lra].
  - split; [discriminate|]. split; [lra|reflexivity].
Qed.
Lemma ex_growing : growing (fun a => a).
Proof. split; [lra|]. intros; assumption. Qed.
