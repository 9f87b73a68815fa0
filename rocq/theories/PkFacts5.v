(** Signs, mean halo mass, beta_nl in the spectra, and shapes. *)
From Coquelicot Require Import Coquelicot.
From Verif Require Import Base Spec Quad Interp HodModel HodSpec Dewiggle PkModel PkSpec BaseFacts QuadFacts
  InterpFacts NumFacts HodFacts HodFacts2 PkFacts PkFacts2 PkFacts3 PkFacts4.
Open Scope R_scope.

(** ** Signs *)
Lemma trunc1_ia_nonneg t k : 0 <= trunc1_ia t k.
Proof.
  destruct t as [t|]; [|simpl; lra]. pose proof (trunc_ia_sum t k). pose proof (trunc2_ia_range t k). lra.
Qed.
Lemma trunc2_ia_nonneg t k : 0 <= trunc2_ia t k.
Proof. destruct t as [t|]; [|simpl; lra]. pose proof (trunc2_ia_range t k). lra. Qed.

Lemma inv_nonneg x : 0 <= x -> 0 <= / x.
Proof.
  intros [H|<-]; [left; apply Rinv_0_lt_compat, H|]. rewrite Rinv_0. lra.
Qed.
Lemma div_nonneg x y : 0 <= x -> 0 <= y -> 0 <= x / y.
Proof. intros. apply Rmult_le_pos; [assumption|apply inv_nonneg; assumption]. Qed.

Section Signs.
  Variables (S : spectra) (b z : nat).
  Hypothesis HI : nonneg_ingredients S.
  Hypothesis HG : nonneg_galaxies S b z.

  Lemma Hnm : (1 <= s_nm S)%nat. Proof. apply HI. Qed.

  Lemma mass_pos' m : (m < s_nm S)%nat -> 0 < s_mass S m.
  Proof.
    destruct HI as (_ & (r & Hr & G) & _). intros Hm.
    apply (geometric_pos (s_nm S) r); [lra|exact G|exact Hm].
  Qed.

  Lemma simpson_ge0 f : (forall m, (m < s_nm S)%nat -> 0 <= f m) -> 0 <= simpson (s_nm S) f (s_mass S).
  Proof.
    destruct HI as (Hn & (r & Hr & G) & _). intros Hf.
    apply (simpson_nonneg (s_nm S) r); try assumption; lra.
  Qed.

  Lemma one_halo_ge0 u v k : (forall m, (m < s_nm S)%nat -> 0 <= u b z k m) ->
    (forall m, (m < s_nm S)%nat -> 0 <= v b z k m) -> 0 <= one_halo S u v b z k.
  Proof.
    intros Hu Hv. apply simpson_ge0. intros m Hm. pose proof (mass_pos' m Hm).
    destruct HI as (_ & _ & _ & _ & Hd & _). pose proof (Hd z m Hm). pose proof (Hu m Hm). pose proof (Hv m Hm).
    apply div_nonneg; [|lra]. apply Rmult_le_pos; [|assumption]. apply Rmult_le_pos; assumption.
  Qed.

  Lemma Ig_ge0 u k : (forall m, (m < s_nm S)%nat -> 0 <= u b z k m) -> 0 <= Ig_term S u b z k.
  Proof.
    intros Hu. apply simpson_ge0. intros m Hm. pose proof (mass_pos' m Hm).
    destruct HI as (_ & _ & _ & _ & Hd & Hb & _). pose proof (Hd z m Hm). pose proof (Hu m Hm). pose proof (Hb z m Hm).
    apply div_nonneg; [|lra]. apply Rmult_le_pos; [|assumption]. apply Rmult_le_pos; assumption.
  Qed.

  Lemma cen_ge0 k m : (m < s_nm S)%nat -> 0 <= cen_profile S b z k m.
  Proof.
    intros Hm. destruct HG as (F & _ & N & _ & H & _). unfold cen_profile, sF_c, sN_c, sn_c.
    apply div_nonneg; [|exact N]. rewrite Rmult_1_r. apply Rmult_le_pos; [exact F|apply H, Hm].
  Qed.

  Lemma scaling_ge0 be mp : 0 <= mass_scaling S be mp b z.
  Proof. unfold mass_scaling. destruct be as [be|], mp as [mp|]; try lra. apply fpow_ge0. Qed.

  Lemma sat_align_ge0 k m : (m < s_nm S)%nat -> 0 <= sat_align S b z k m.
  Proof.
    intros Hm. destruct HG as (_ & F & _ & N & _ & H). destruct HI as (_ & _ & _ & _ & _ & _ & _ & _ & Hw & _).
    unfold sat_align, sF_s, sN_s, sn_s.
    apply Rmult_le_pos; [|apply scaling_ge0]. apply div_nonneg; [|exact N].
    apply Rmult_le_pos; [|apply Hw, Hm]. apply Rmult_le_pos; [exact F|apply H, Hm].
  Qed.

  Lemma C1_ge0 : 0 <= C1 S z.
  Proof. destruct HI as (_ & _ & _ & _ & _ & _ & _ & _ & _ & Hg). unfold C1. pose proof (Hg z). lra. Qed.

  Lemma cen_align_ge0 k m : (m < s_nm S)%nat -> 0 <= cen_align S b z k m.
  Proof.
    intros Hm. destruct HG as (F & _). pose proof (mass_pos' m Hm). destruct HI as (_ & _ & _ & Hg & _).
    unfold cen_align, sF_c. pose proof (Hg z).
    apply Rmult_le_pos; [|apply scaling_ge0]. apply Rmult_le_pos; [|lra].
    apply Rmult_le_pos; [exact F|]. apply div_nonneg; [apply C1_ge0|lra].
  Qed.

  Lemma A_ge0 : bias_budget S z -> 0 <= A_term S z.
  Proof.
    intros H. unfold bias_budget in H. unfold A_term.
    assert (E : forall m, s_bias S z m * s_dndlnm S z m * (1 / s_rho S z) = s_bias S z m * s_dndlnm S z m / s_rho S z)
      by (intros; unfold Rdiv; ring).
    rewrite (simpson_pw _ _ _ _ E). lra.
  Qed.

  Lemma I_align_ge0 u k : bias_budget S z -> (forall m, (m < s_nm S)%nat -> 0 <= u b z k m) ->
    0 <= I_align S u b z k.
  Proof.
    intros HA Hu. pose proof Hnm. unfold I_align. pose proof (Ig_ge0 u k Hu). pose proof (A_ge0 HA).
    pose proof (Hu 0%nat ltac:(lia)). pose proof (mass_pos' 0%nat ltac:(lia)).
    destruct HI as (_ & _ & Hr & _). pose proof (Hr z).
    assert (0 <= A_term S z * u b z k 0%nat * s_rho S z / s_mass S 0%nat); [|lra].
    apply div_nonneg; [|lra]. apply Rmult_le_pos; [|lra]. apply Rmult_le_pos; assumption.
  Qed.

  Lemma Im_ge0 k : bias_budget S z -> 0 <= Im_term S z k.
  Proof.
    intros HA. unfold Im_term. pose proof (A_ge0 HA).
    assert (0 <= simpson (s_nm S) (fun m => s_bias S z m * s_dndlnm S z m * u_dm S z k m * (1 / s_rho S z)) (s_mass S)); [|lra].
    apply simpson_ge0. intros m Hm. destruct HI as (_ & _ & Hr & _ & Hd & Hb & Hu & _).
    pose proof (Hr z). pose proof (Hd z m Hm). pose proof (Hb z m Hm). pose proof (Hu z k m Hm).
    apply Rmult_le_pos; [|apply div_nonneg; lra]. apply Rmult_le_pos; [|assumption]. apply Rmult_le_pos; assumption.
  Qed.

  Lemma obs_profile_ge0 f k m : physical_baryons S b z -> (m < s_nm S)%nat ->
    0 <= f b z m <= s_ob S / s_om S -> 0 <= matter_profile_obs S f b z k m.
  Proof.
    intros (Ho & Hc & E & Hmb & _) Hm [F0 F1]. pose proof (mass_pos' m Hm).
    destruct HI as (_ & _ & Hr & _ & _ & _ & Hu & _). pose proof (Hr z). pose proof (Hu z k m Hm).
    unfold matter_profile_obs.
    pose proof (fg_fit_range (s_ob S) (s_om S) (s_mass S m) (s_mb S) _ F0 F1 Hmb) as [G0 G1].
    assert (0 <= s_oc S / s_om S) by (apply div_nonneg; lra).
    assert (0 <= s_mass S m / s_rho S z) by (apply div_nonneg; lra).
    set (W := s_mass S m / s_rho S z) in *. apply Rplus_le_le_0_compat; [|apply Rmult_le_pos; assumption].
    apply Rmult_le_pos; [|assumption]. apply Rmult_le_pos; [lra|assumption].
  Qed.

  Lemma fb_profile_ge0 k m : physical_baryons S b z -> (m < s_nm S)%nat -> 0 <= matter_profile_fb S b z k m.
  Proof.
    intros (Ho & Hc & E & Hmb & (F0 & F1) & _) Hm. pose proof (mass_pos' m Hm).
    destruct HI as (_ & _ & Hr & _ & _ & _ & Hu & _). pose proof (Hr z). pose proof (Hu z k m Hm).
    unfold matter_profile_fb. rewrite fg_is_fit.
    pose proof (fg_fit_range (s_ob S) (s_om S) (s_mass S m) (gas_pivot (s_logT S) (s_zvec S z)) _ F0 F1
      (gas_pivot_pos _ _)) as [G0 G1].
    assert (0 <= s_oc S / s_om S) by (apply div_nonneg; lra).
    assert (0 <= s_mass S m / s_rho S z) by (apply div_nonneg; lra).
    set (W := s_mass S m / s_rho S z) in *. apply Rplus_le_le_0_compat; [|apply Rmult_le_pos; assumption].
    apply Rmult_le_pos; [|assumption]. apply Rmult_le_pos; [lra|assumption].
  Qed.

  Lemma plain_profile_ge0 k m : (m < s_nm S)%nat -> 0 <= matter_profile S b z k m.
  Proof.
    intros Hm. pose proof (mass_pos' m Hm).
    destruct HI as (_ & _ & Hr & _ & _ & _ & Hu & _). pose proof (Hr z). pose proof (Hu z k m Hm).
    unfold matter_profile. apply Rmult_le_pos; [apply div_nonneg; lra|assumption].
  Qed.

  Lemma xm_ge0 k m : no_feedback S \/ physical_baryons S b z -> (m < s_nm S)%nat -> 0 <= profile_xm S b z k m.
  Proof.
    intros HF Hm. unfold profile_xm.
    destruct (s_ingr S) eqn:Ei; [|apply plain_profile_ge0, Hm| |].
    - destruct HF as [[E|[E _]]|HF]; [congruence|congruence|]. apply fb_profile_ge0; assumption.
    - destruct HF as [[E|[E _]]|HF]; [congruence|congruence|]. apply obs_profile_ge0; try assumption.
      apply HF, Hm.
    - destruct (s_pointmass S) eqn:Ep; [|apply plain_profile_ge0, Hm].
      destruct HF as [[E|[_ E]]|HF]; [congruence|congruence|]. apply obs_profile_ge0; try assumption.
      apply HF, Hm.
  Qed.

  (** In the default mode: linear power non-negative. *)
  Lemma signs_default rmi rii rgi pl k : s_mode S = NoNl -> s_response S = false -> bias_budget S z ->
    no_feedback S \/ physical_baryons S b z -> pk_lin S = Ok pl -> 0 <= pl z k ->
    power_spectrum_mi S = Ok rmi -> power_spectrum_ii S = Ok rii -> power_spectrum_gi S = Ok rgi ->
    (pk_1h rmi b z k <= 0 /\ pk_2h rmi b z k <= 0 /\ pk_tot rmi b z k <= 0) /\
    (0 <= pk_1h rii b z k /\ 0 <= pk_2h rii b z k /\ 0 <= pk_tot rii b z k) /\
    (0 <= pk_1h rgi b z k /\ 0 <= pk_2h rgi b z k /\ 0 <= pk_tot rgi b z k).
  Proof.
    intros Hm Hr HA HF El Hpl H1 H2 H3.
    destruct (mi_form S rmi Hm Hr H1) as (p1 & E1 & A1 & B1).
    destruct (ii_form S rii (or_introl Hm) Hr H2) as (p2 & E2 & A2 & B2).
    destruct (gi_form S rgi (or_introl Hm) Hr H3) as (p3 & E3 & A3 & B3).
    rewrite El in E1, E2, E3. injection E1 as <-. injection E2 as <-. injection E3 as <-.
    rewrite (mi_adds S rmi H1), (ii_adds S rii H2), (gi_adds S rgi H3).
    rewrite A1, B1, A2, B2, A3, B3.
    pose proof (trunc1_ia_nonneg (s_k1_ia S) (s_kvec S k)) as T1.
    pose proof (trunc2_ia_nonneg (s_k2_ia S) (s_kvec S k)) as T2.
    fold (t1i S k) in T1. fold (t2i S k) in T2.
    assert (O1 : 0 <= one_halo S (profile_xm S) (sat_align S) b z k)
      by (apply one_halo_ge0; intros m Hlt; [apply xm_ge0; assumption|apply sat_align_ge0, Hlt]).
    assert (O2 : 0 <= one_halo S (sat_align S) (sat_align S) b z k)
      by (apply one_halo_ge0; intros m Hlt; apply sat_align_ge0, Hlt).
    assert (O3 : 0 <= one_halo S (cen_profile S) (sat_align S) b z k)
      by (apply one_halo_ge0; intros m Hlt; [apply cen_ge0, Hlt|apply sat_align_ge0, Hlt]).
    assert (P1 : 0 <= Ic_align S b z k) by (apply I_align_ge0; [exact HA|intros m Hlt; apply cen_align_ge0, Hlt]).
    assert (P2 : 0 <= Is_align S b z k) by (apply I_align_ge0; [exact HA|intros m Hlt; apply sat_align_ge0, Hlt]).
    assert (P3 : 0 <= Ic_term S b z k) by (apply Ig_ge0; intros m Hlt; apply cen_ge0, Hlt).
    pose proof (Im_ge0 k HA) as P4.
    assert (Q1 : 0 <= one_halo S (profile_xm S) (sat_align S) b z k * t1i S k) by (apply Rmult_le_pos; assumption).
    assert (Q2 : 0 <= one_halo S (sat_align S) (sat_align S) b z k * t1i S k) by (apply Rmult_le_pos; assumption).
    assert (Q3 : 0 <= one_halo S (cen_profile S) (sat_align S) b z k * t1i S k) by (apply Rmult_le_pos; assumption).
    assert (Q4 : 0 <= pl z k * (Ic_align S b z k + Is_align S b z k) * Im_term S z k * t2i S k)
      by (repeat apply Rmult_le_pos; try assumption; lra).
    assert (Q5 : 0 <= pl z k * (Ic_align S b z k ^ 2 + Is_align S b z k ^ 2 + Ic_align S b z k * Is_align S b z k) * t2i S k).
    { apply Rmult_le_pos; [|assumption]. apply Rmult_le_pos; [assumption|]. nra. }
    assert (Q6 : 0 <= pl z k * Ic_term S b z k * (Ic_align S b z k + Is_align S b z k) * t2i S k)
      by (repeat apply Rmult_le_pos; try assumption; lra).
    repeat split; lra.
  Qed.

  Lemma signs_fortuna rmi rii rgi pl pn k : s_mode S = Fortuna -> s_response S = false ->
    no_feedback S \/ physical_baryons S b z -> 0 <= s_t_eff S <= 1 ->
    pk_lin S = Ok pl -> pk_nl S = Ok (Some pn) -> 0 <= pl z k -> 0 <= pn z k ->
    power_spectrum_mi S = Ok rmi -> power_spectrum_ii S = Ok rii -> power_spectrum_gi S = Ok rgi ->
    (pk_1h rmi b z k <= 0 /\ pk_2h rmi b z k <= 0 /\ pk_tot rmi b z k <= 0) /\
    (0 <= pk_1h rii b z k /\ 0 <= pk_2h rii b z k /\ 0 <= pk_tot rii b z k) /\
    (0 <= pk_1h rgi b z k /\ 0 <= pk_2h rgi b z k /\ 0 <= pk_tot rgi b z k).
  Proof.
    intros Hm Hr HF Ht El En Hpl Hpn H1 H2 H3.
    destruct (mi_fortuna S rmi Hm Hr H1) as (p1 & E1 & A1 & B1).
    destruct (ii_fortuna S rii Hm Hr H2) as (p2 & E2 & A2 & B2).
    destruct (gi_fortuna S rgi Hm Hr H3) as (p3 & E3 & A3 & B3).
    rewrite E1 in E2, E3. injection E2 as <-. injection E3 as <-.
    destruct (peff_form S p1 Hm E1) as (pl' & pn' & El' & En' & Hpe).
    rewrite El in El'. injection El' as <-. rewrite En in En'. injection En' as <-.
    rewrite (mi_adds S rmi H1), (ii_adds S rii H2), (gi_adds S rgi H3).
    rewrite A1, B1, A2, B2, A3, B3.
    assert (Pe : 0 <= p1 z k) by (rewrite Hpe; nra).
    pose proof (trunc1_ia_nonneg (s_k1_ia S) (s_kvec S k)) as T1.
    pose proof (trunc2_ia_nonneg (s_k2_ia S) (s_kvec S k)) as T2.
    fold (t1i S k) in T1. fold (t2i S k) in T2.
    assert (O1 : 0 <= one_halo S (profile_xm S) (sat_align S) b z k)
      by (apply one_halo_ge0; intros m Hlt; [apply xm_ge0; assumption|apply sat_align_ge0, Hlt]).
    assert (O2 : 0 <= one_halo S (sat_align S) (sat_align S) b z k)
      by (apply one_halo_ge0; intros m Hlt; apply sat_align_ge0, Hlt).
    assert (O3 : 0 <= one_halo S (cen_profile S) (sat_align S) b z k)
      by (apply one_halo_ge0; intros m Hlt; [apply cen_ge0, Hlt|apply sat_align_ge0, Hlt]).
    assert (P3 : 0 <= Ic_term S b z k) by (apply Ig_ge0; intros m Hlt; apply cen_ge0, Hlt).
    pose proof C1_ge0 as Hc1.
    assert (Pa : 0 <= C1 S z * s_rho S z / s_growth S z).
    { destruct HI as (_ & _ & Hrho & Hg & _). pose proof (Hrho z). pose proof (Hg z).
      apply div_nonneg; [apply Rmult_le_pos; lra|lra]. }
    assert (Fc : 0 <= sF_c S b z) by apply HG. unfold amp_2h, amp_2h_II. set (a := C1 S z * s_rho S z / s_growth S z) in *. clearbody a.
    assert (Q1 : 0 <= one_halo S (profile_xm S) (sat_align S) b z k * t1i S k) by (apply Rmult_le_pos; assumption).
    assert (Q2 : 0 <= one_halo S (sat_align S) (sat_align S) b z k * t1i S k) by (apply Rmult_le_pos; assumption).
    assert (Q3 : 0 <= one_halo S (cen_profile S) (sat_align S) b z k * t1i S k) by (apply Rmult_le_pos; assumption).
    assert (Q4 : 0 <= sF_c S b z * p1 z k * a * t2i S k) by (repeat apply Rmult_le_pos; assumption).
    assert (Q5 : 0 <= sF_c S b z ^ 2 * p1 z k * a ^ 2 * t2i S k)
      by (apply Rmult_le_pos; [|assumption]; apply Rmult_le_pos; [|apply pow2_ge_0]; apply Rmult_le_pos; [apply pow2_ge_0|assumption]).
    assert (Q6 : 0 <= p1 z k * Ic_term S b z k * a * t2i S k) by (repeat apply Rmult_le_pos; assumption).
    replace (sF_c S b z * p1 z k * (-1 * a) * t2i S k) with (- (sF_c S b z * p1 z k * a * t2i S k)) by ring.
    replace (- (p1 z k * Ic_term S b z k * (-1 * a) * t2i S k)) with (p1 z k * Ic_term S b z k * a * t2i S k) by ring.
    repeat split; lra.
  Qed.
End Signs.

Lemma interp_nonneg_z c f b i : valid_z c -> (b < zbins (c_set c))%nat -> in_range c b i ->
  (forall j, (j < nz (c_set c))%nat -> 0 <= f b j) -> 0 <= z_interpolate c Extrapolate f b i.
Proof.
  intros (Hn & Hz & _) Hb [H0 H1] Hf. unfold z_interpolate. simpl.
  apply interp_nonneg; try assumption. apply Hz, Hb.
Qed.

(** The physical-sample hypothesis follows from a physical HOD request. *)
Lemma physical_galaxies S b z : valid_z (hctx S) -> valid_mass (hctx S) -> valid_hmf (hctx S) ->
  valid_hod (hctx S) (s_hod S) b -> populated (hctx S) (s_hod S) b ->
  (b < zbins (s_hod_set S))%nat -> in_range (hctx S) b z -> nonneg_galaxies S b z.
Proof.
  intros Hz Hm Hh Hv Hp Hb Hi.
  destruct (valid_hod_nonneg (hctx S) (s_hod S) b Hm Hv) as [Nc Ns].
  destruct (api_fractions_range (hctx S) (s_hod S) b z Hz Hm Hh Hb Hi Hv Hp) as [F1 F2].
  destruct (api_density_nonneg (hctx S) (s_hod S) b z Hz Hm Hh Hb Hi Hv) as (D1 & D2).
  split; [apply F1|]. split; [apply F2|]. split; [exact D1|]. split; [exact D2|].
  split; intros m Hlt.
  - apply (interp_nonneg_z (hctx S) (fun b j => compute_hod_cen (hctx S) (s_hod S) b j m)); try assumption.
    intros j Hj. apply Nc; assumption.
  - apply (interp_nonneg_z (hctx S) (fun b j => compute_hod_sat (hctx S) (s_hod S) b j m)); try assumption.
    intros j Hj. apply Ns; assumption.
Qed.
