(** Power spectra as mass integrals, signs, and the mean halo mass. *)
From Coquelicot Require Import Coquelicot.
From Verif Require Import Base Spec Quad Interp HodModel HodSpec Dewiggle PkModel PkSpec BaseFacts QuadFacts
  InterpFacts NumFacts HodFacts HodFacts2 PkFacts PkFacts2.
Open Scope R_scope.

(** ** Mass integrals *)
Lemma one_halo_RInt S u v (U V n : R -> R) b z k :
  valid_mass (hctx S) -> (3 <= s_nm S)%nat ->
  (forall m, (m < s_nm S)%nat -> u b z k m = U (s_mass S m)) ->
  (forall m, (m < s_nm S)%nat -> v b z k m = V (s_mass S m)) ->
  (forall m, (m < s_nm S)%nat -> s_dndlnm S z m = s_mass S m * n (s_mass S m)) ->
  is_parabola (fun M => U M * V M * n M) ->
  one_halo S u v b z k = mass_int S (fun M => U M * V M * n M).
Proof.
  intros Hm Hn Hu Hv Hd Hp. unfold one_halo, mass_int.
  rewrite <- (simpson_RInt (s_nm S)) by (try assumption; apply (mass_incr (hctx S)), Hm).
  apply simpson_ext; [lia| |reflexivity]. intros m Hlt. rewrite Hu, Hv, Hd by exact Hlt.
  pose proof (mass_pos (hctx S) m Hm Hlt) as Hp'. change (c_mass (hctx S)) with (s_mass S) in Hp'. field. lra.
Qed.

Lemma Ig_RInt S prof (U bf n : R -> R) b z k :
  valid_mass (hctx S) -> (3 <= s_nm S)%nat ->
  (forall m, (m < s_nm S)%nat -> prof b z k m = U (s_mass S m)) ->
  (forall m, (m < s_nm S)%nat -> s_bias S z m = bf (s_mass S m)) ->
  (forall m, (m < s_nm S)%nat -> s_dndlnm S z m = s_mass S m * n (s_mass S m)) ->
  is_parabola (fun M => U M * bf M * n M) ->
  Ig_term S prof b z k = mass_int S (fun M => U M * bf M * n M).
Proof.
  intros Hm Hn Hu Hv Hd Hp. unfold Ig_term, mass_int.
  rewrite <- (simpson_RInt (s_nm S)) by (try assumption; apply (mass_incr (hctx S)), Hm).
  apply simpson_ext; [lia| |reflexivity]. intros m Hlt. rewrite Hu, Hv, Hd by exact Hlt.
  pose proof (mass_pos (hctx S) m Hm Hlt) as Hp'. change (c_mass (hctx S)) with (s_mass S) in Hp'. field. lra.
Qed.

Lemma simpson_M_RInt S (f : nat -> R) (F : R -> R) :
  valid_mass (hctx S) -> (3 <= s_nm S)%nat ->
  (forall m, (m < s_nm S)%nat -> f m = F (s_mass S m)) -> is_parabola F ->
  simpson (s_nm S) f (s_mass S) = mass_int S F.
Proof.
  intros Hm Hn Hu Hp. unfold mass_int.
  rewrite <- (simpson_RInt (s_nm S)) by (try assumption; apply (mass_incr (hctx S)), Hm).
  apply simpson_ext; [lia| |reflexivity]. intros m Hlt. apply Hu, Hlt.
Qed.

Section Sampled.
  Variables (S : spectra) (b j z k : nat) (h : halo_fields).
  Hypothesis Hz : valid_z (hctx S).
  Hypothesis Hm : valid_mass (hctx S).
  Hypothesis Hn : (3 <= s_nm S)%nat.
  Hypothesis Hg : galaxies_exist S b z.
  Hypothesis Hs : sampled_at S b j z k h.

  Lemma sa_cen m : (m < s_nm S)%nat -> cen_profile S b z k m = h_Nc h (s_mass S m) / n_gal S b z.
  Proof.
    intros Hlt. destruct Hs as [(Hb & Hj & Hi & E & H) _]. destruct (H m Hlt) as (Hc & _ & _).
    destruct (fractions_ratio (hctx S) (s_hod S) b j z Hz Hb Hj E) as [Fc _].
    destruct Hg as [G1 _]. unfold cen_profile, sF_c, sN_c, sn_c, n_gal.
    rewrite Fc, Hc. change (c_mass (hctx S)) with (s_mass S). unfold Rdiv.
    replace (number_density_cen (hctx S) (s_hod S) b z * / number_density (hctx S) (s_hod S) b z *
       h_Nc h (s_mass S m) * 1 * / number_density_cen (hctx S) (s_hod S) b z)
      with (h_Nc h (s_mass S m) * / number_density (hctx S) (s_hod S) b z *
        (number_density_cen (hctx S) (s_hod S) b z * / number_density_cen (hctx S) (s_hod S) b z)) by ring.
    rewrite Rinv_r by exact G1. ring.
  Qed.

  Lemma sa_sat m : (m < s_nm S)%nat ->
    sat_profile S b z k m = h_Ns h (s_mass S m) * h_us h (s_mass S m) / n_gal S b z.
  Proof.
    intros Hlt. destruct Hs as [(Hb & Hj & Hi & E & H) H']. destruct (H m Hlt) as (_ & Hsat & _).
    destruct (H' m Hlt) as (_ & _ & Hu & _).
    destruct (fractions_ratio (hctx S) (s_hod S) b j z Hz Hb Hj E) as [_ Fs].
    destruct Hg as [_ G2]. unfold sat_profile, sF_s, sN_s, sn_s, n_gal.
    rewrite Fs, Hsat, Hu. change (c_mass (hctx S)) with (s_mass S). unfold Rdiv.
    replace (number_density_sat (hctx S) (s_hod S) b z * / number_density (hctx S) (s_hod S) b z *
       h_Ns h (s_mass S m) * h_us h (s_mass S m) * / number_density_sat (hctx S) (s_hod S) b z)
      with (h_Ns h (s_mass S m) * h_us h (s_mass S m) * / number_density (hctx S) (s_hod S) b z *
        (number_density_sat (hctx S) (s_hod S) b z * / number_density_sat (hctx S) (s_hod S) b z)) by ring.
    rewrite Rinv_r by exact G2. ring.
  Qed.

  Lemma sa_align m : no_mass_scaling S -> (m < s_nm S)%nat ->
    sat_align S b z k m = h_Ns h (s_mass S m) * h_w h (s_mass S m) / n_gal S b z.
  Proof.
    intros [_ Hns] Hlt. destruct Hs as [(Hb & Hj & Hi & E & H) H']. destruct (H m Hlt) as (_ & Hsat & _).
    destruct (H' m Hlt) as (_ & _ & _ & Hw).
    destruct (fractions_ratio (hctx S) (s_hod S) b j z Hz Hb Hj E) as [_ Fs].
    destruct Hg as [_ G2]. unfold sat_align, sF_s, sN_s, sn_s, n_gal.
    rewrite scaling_none by exact Hns.
    rewrite Fs, Hsat, Hw. change (c_mass (hctx S)) with (s_mass S). unfold Rdiv.
    replace (number_density_sat (hctx S) (s_hod S) b z * / number_density (hctx S) (s_hod S) b z *
       h_Ns h (s_mass S m) * h_w h (s_mass S m) * / number_density_sat (hctx S) (s_hod S) b z * 1)
      with (h_Ns h (s_mass S m) * h_w h (s_mass S m) * / number_density (hctx S) (s_hod S) b z *
        (number_density_sat (hctx S) (s_hod S) b z * / number_density_sat (hctx S) (s_hod S) b z)) by ring.
    rewrite Rinv_r by exact G2. ring.
  Qed.

  Lemma sa_dndlnm m : (m < s_nm S)%nat -> s_dndlnm S z m = s_mass S m * h_n h (s_mass S m).
  Proof. intros Hlt. destruct Hs as [(_ & _ & _ & _ & H) _]. apply (H m Hlt). Qed.
  Lemma sa_bias m : (m < s_nm S)%nat -> s_bias S z m = h_b h (s_mass S m).
  Proof. intros Hlt. destruct Hs as [_ H]. apply (H m Hlt). Qed.
  Lemma sa_u m : (m < s_nm S)%nat -> u_dm S z k m = h_u h (s_mass S m).
  Proof. intros Hlt. destruct Hs as [_ H]. apply (H m Hlt). Qed.

  Lemma profile_xm_plain : no_feedback S ->
    forall m, (m < s_nm S)%nat -> profile_xm S b z k m = s_mass S m / s_rho S z * h_u h (s_mass S m).
  Proof.
    intros Hf m Hlt. unfold profile_xm.
    destruct Hf as [->|[-> ->]]; unfold matter_profile; rewrite sa_u by exact Hlt; reflexivity.
  Qed.
  Lemma profile_mm_plain : no_feedback S ->
    forall m, (m < s_nm S)%nat -> profile_mm S b z k m = s_mass S m / s_rho S z * h_u h (s_mass S m).
  Proof.
    intros Hf m Hlt. unfold profile_mm.
    destruct Hf as [->|[-> _]]; unfold matter_profile; rewrite sa_u by exact Hlt; reflexivity.
  Qed.

  Notation Wm := (fun M => M / s_rho S z * h_u h M).
  Notation Wc := (fun M => h_Nc h M / n_gal S b z).
  Notation Ws := (fun M => h_Ns h M * h_us h M / n_gal S b z).
  Notation Wi := (fun M => h_Ns h M * h_w h M / n_gal S b z).
  Notation n := (h_n h).

  Lemma mm_1h r : plain_mode (s_mode S) -> s_response S = false -> no_feedback S ->
    power_spectrum_mm S = Ok r -> is_parabola (fun M => Wm M * Wm M * n M) ->
    pk_1h r b z k = mass_int S (fun M => Wm M * Wm M * n M) * trunc1 (s_k1 S) (s_kvec S k).
  Proof.
    intros Hpm Hr Hf H P. destruct (mm_form S r Hpm Hr H) as (pl & _ & _ & F). rewrite F.
    rewrite (one_halo_RInt S _ _ Wm Wm n); try assumption; try (apply profile_mm_plain, Hf).
    - reflexivity.
    - exact sa_dndlnm.
  Qed.

  Lemma gg_1h r P0 : is_bnl (s_mode S) = false -> s_response S = false -> s_poisson S = PConstant P0 ->
    power_spectrum_gg S = Ok r ->
    is_parabola (fun M => Wc M * Ws M * n M) -> is_parabola (fun M => Ws M * Ws M * n M) ->
    pk_1h r b z k = (2 * mass_int S (fun M => Wc M * Ws M * n M)
                     + P0 * mass_int S (fun M => Ws M * Ws M * n M)) * trunc1 (s_k1 S) (s_kvec S k).
  Proof.
    intros Hb Hr Hpo H P1 P2. destruct (gg_form S r Hb Hr H) as (pl & po & _ & Epo & _ & F & _).
    rewrite F. rewrite Hpo in Epo. simpl in Epo. injection Epo as <-.
    rewrite (one_halo_RInt S (cen_profile S) (sat_profile S) Wc Ws n); try assumption.
    2: exact sa_cen. 2: exact sa_sat. 2: exact sa_dndlnm.
    assert (E : one_halo S (fun b z k m => sat_profile S b z k m * (P0 * 1)) (sat_profile S) b z k
              = P0 * one_halo S (sat_profile S) (sat_profile S) b z k).
    { rewrite one_halo_sym, <- one_halo_scal_r. unfold one_halo. apply simpson_pw. intros. unfold Rdiv. ring. }
    rewrite E. rewrite (one_halo_RInt S (sat_profile S) (sat_profile S) Ws Ws n); try assumption.
    2: exact sa_sat. 2: exact sa_sat. 2: exact sa_dndlnm. reflexivity.
  Qed.

  Lemma gm_1h r : is_bnl (s_mode S) = false -> s_response S = false -> no_feedback S ->
    power_spectrum_gm S = Ok r ->
    is_parabola (fun M => Wc M * Wm M * n M) -> is_parabola (fun M => Ws M * Wm M * n M) ->
    pk_1h r b z k = (mass_int S (fun M => Wc M * Wm M * n M) + mass_int S (fun M => Ws M * Wm M * n M))
                    * trunc1 (s_k1 S) (s_kvec S k).
  Proof.
    intros Hb Hr Hf H P1 P2. destruct (gm_form S r Hb Hr H) as (pl & _ & _ & F). rewrite F.
    rewrite (one_halo_RInt S (cen_profile S) (profile_xm S) Wc Wm n); try assumption.
    2: exact sa_cen. 2: apply profile_xm_plain, Hf. 2: exact sa_dndlnm.
    rewrite (one_halo_RInt S (sat_profile S) (profile_xm S) Ws Wm n); try assumption.
    2: exact sa_sat. 2: apply profile_xm_plain, Hf. 2: exact sa_dndlnm.
    reflexivity.
  Qed.

  Lemma mi_1h r : s_mode S = NoNl \/ s_mode S = Fortuna -> s_response S = false -> no_feedback S ->
    no_mass_scaling S -> power_spectrum_mi S = Ok r ->
    is_parabola (fun M => Wm M * Wi M * n M) ->
    pk_1h r b z k = - (mass_int S (fun M => Wm M * Wi M * n M) * trunc1_ia (s_k1_ia S) (s_kvec S k)).
  Proof.
    intros Hmo Hr Hf Hns H P1.
    assert (F : forall b z k, pk_1h r b z k = - (one_halo S (profile_xm S) (sat_align S) b z k * t1i S k)).
    { destruct Hmo as [Hmo|Hmo].
      - destruct (mi_form S r Hmo Hr H) as (pl & _ & _ & F). exact F.
      - destruct (mi_fortuna S r Hmo Hr H) as (pl & _ & _ & F). exact F. }
    rewrite F.
    rewrite (one_halo_RInt S (profile_xm S) (sat_align S) Wm Wi n); try assumption.
    - reflexivity.
    - apply profile_xm_plain, Hf.
    - intros m. apply sa_align, Hns.
    - exact sa_dndlnm.
  Qed.

  Lemma ii_1h r : s_mode S = NoNl \/ s_mode S = Fortuna -> s_response S = false ->
    no_mass_scaling S -> power_spectrum_ii S = Ok r ->
    is_parabola (fun M => Wi M * Wi M * n M) ->
    pk_1h r b z k = mass_int S (fun M => Wi M * Wi M * n M) * trunc1_ia (s_k1_ia S) (s_kvec S k).
  Proof.
    intros Hmo Hr Hns H P1.
    assert (F : forall b z k, pk_1h r b z k = one_halo S (sat_align S) (sat_align S) b z k * t1i S k).
    { destruct Hmo as [Hmo|Hmo].
      - destruct (ii_form S r (or_introl Hmo) Hr H) as (pl & _ & _ & F). exact F.
      - destruct (ii_fortuna S r Hmo Hr H) as (pl & _ & _ & F). exact F. }
    rewrite F.
    rewrite (one_halo_RInt S (sat_align S) (sat_align S) Wi Wi n); try assumption.
    - reflexivity.
    - intros m. apply sa_align, Hns.
    - intros m. apply sa_align, Hns.
    - exact sa_dndlnm.
  Qed.

  Lemma gi_1h r : s_mode S = NoNl \/ s_mode S = Fortuna -> s_response S = false ->
    no_mass_scaling S -> power_spectrum_gi S = Ok r ->
    is_parabola (fun M => Wc M * Wi M * n M) ->
    pk_1h r b z k = mass_int S (fun M => Wc M * Wi M * n M) * trunc1_ia (s_k1_ia S) (s_kvec S k).
  Proof.
    intros Hmo Hr Hns H P1.
    assert (F : forall b z k, pk_1h r b z k = one_halo S (cen_profile S) (sat_align S) b z k * t1i S k).
    { destruct Hmo as [Hmo|Hmo].
      - destruct (gi_form S r (or_introl Hmo) Hr H) as (pl & _ & _ & F). exact F.
      - destruct (gi_fortuna S r Hmo Hr H) as (pl & _ & _ & F). exact F. }
    rewrite F.
    rewrite (one_halo_RInt S (cen_profile S) (sat_align S) Wc Wi n); try assumption.
    - reflexivity.
    - exact sa_cen.
    - intros m. apply sa_align, Hns.
    - exact sa_dndlnm.
  Qed.

  (** Two-halo integrals. *)
  Notation bf := (h_b h).

  Lemma Im_RInt : (forall z, 0 < s_rho S z) -> is_parabola (fun M => Wm M * bf M * n M) ->
    is_parabola (fun M => M / s_rho S z * bf M * n M) ->
    Im_term S z k = 1 + mass_int S (fun M => Wm M * bf M * n M) - mass_int S (fun M => M / s_rho S z * bf M * n M).
  Proof.
    intros Hrho P1 P2. unfold Im_term, A_term.
    rewrite (simpson_M_RInt S _ (fun M => Wm M * bf M * n M) Hm Hn); [|intros m Hlt|exact P1].
    2:{ rewrite sa_bias, sa_dndlnm, sa_u by exact Hlt. pose proof (Hrho z). field. lra. }
    rewrite (simpson_M_RInt S _ (fun M => M / s_rho S z * bf M * n M) Hm Hn); [|intros m Hlt|exact P2].
    2:{ rewrite sa_bias, sa_dndlnm by exact Hlt. pose proof (Hrho z). field. lra. }
    ring.
  Qed.

  Lemma Ic_RInt : is_parabola (fun M => Wc M * bf M * n M) ->
    Ic_term S b z k = mass_int S (fun M => Wc M * bf M * n M).
  Proof.
    intros P. unfold Ic_term. apply Ig_RInt; try assumption; [exact sa_cen|exact sa_bias|exact sa_dndlnm].
  Qed.
  Lemma Is_RInt : is_parabola (fun M => Ws M * bf M * n M) ->
    Is_term S b z k = mass_int S (fun M => Ws M * bf M * n M).
  Proof.
    intros P. unfold Is_term. apply Ig_RInt; try assumption; [exact sa_sat|exact sa_bias|exact sa_dndlnm].
  Qed.
  Lemma Is_align_RInt : no_mass_scaling S -> is_parabola (fun M => Wi M * bf M * n M) ->
    is_parabola (fun M => M / s_rho S z * bf M * n M) -> (forall z, 0 < s_rho S z) ->
    Is_align S b z k = mass_int S (fun M => Wi M * bf M * n M)
      + (1 - mass_int S (fun M => M / s_rho S z * bf M * n M)) * Wi (s_mass S 0%nat) * s_rho S z / s_mass S 0%nat.
  Proof.
    intros Hns P P2 Hrho. unfold Is_align, I_align.
    rewrite (Ig_RInt S (sat_align S) Wi bf n); try assumption;
      [|intros m; apply sa_align, Hns|exact sa_bias|exact sa_dndlnm].
    rewrite sa_align by (try assumption; lia). unfold A_term.
    rewrite (simpson_M_RInt S _ (fun M => M / s_rho S z * bf M * n M) Hm Hn); [reflexivity|intros m Hlt|exact P2].
    rewrite sa_bias, sa_dndlnm by exact Hlt. pose proof (Hrho z). field. lra.
  Qed.

  Lemma gg_2h r : is_bnl (s_mode S) = false -> s_response S = false -> power_spectrum_gg S = Ok r ->
    is_parabola (fun M => Wc M * bf M * n M) -> is_parabola (fun M => Ws M * bf M * n M) ->
    exists pl, pk_lin S = Ok pl /\
    pk_2h r b z k = pl z k * (mass_int S (fun M => Wc M * bf M * n M) + mass_int S (fun M => Ws M * bf M * n M)) ^ 2
                    * trunc2 (s_k2 S) (s_kvec S k).
  Proof.
    intros Hb Hr H P1 P2. destruct (gg_form S r Hb Hr H) as (pl & po & E & _ & F & _).
    exists pl. split; [exact E|]. rewrite F, Ic_RInt, Is_RInt by assumption. reflexivity.
  Qed.

  Lemma gm_2h r : is_bnl (s_mode S) = false -> s_response S = false -> power_spectrum_gm S = Ok r ->
    (forall z, 0 < s_rho S z) ->
    is_parabola (fun M => Wc M * bf M * n M) -> is_parabola (fun M => Ws M * bf M * n M) ->
    is_parabola (fun M => Wm M * bf M * n M) -> is_parabola (fun M => M / s_rho S z * bf M * n M) ->
    exists pl, pk_lin S = Ok pl /\
    pk_2h r b z k = pl z k * (mass_int S (fun M => Wc M * bf M * n M) + mass_int S (fun M => Ws M * bf M * n M))
                    * (1 + mass_int S (fun M => Wm M * bf M * n M) - mass_int S (fun M => M / s_rho S z * bf M * n M))
                    * trunc2 (s_k2 S) (s_kvec S k).
  Proof.
    intros Hb Hr H Hrho P1 P2 P3 P4. destruct (gm_form S r Hb Hr H) as (pl & E & F & _).
    exists pl. split; [exact E|]. rewrite F, Ic_RInt, Is_RInt, Im_RInt by assumption. reflexivity.
  Qed.

  Lemma mm_2h r : plain_mode (s_mode S) -> s_response S = false -> power_spectrum_mm S = Ok r ->
    (forall z, 0 < s_rho S z) ->
    is_parabola (fun M => Wm M * bf M * n M) -> is_parabola (fun M => M / s_rho S z * bf M * n M) ->
    exists pl, pk_lin S = Ok pl /\
    pk_2h r b z k = pl z k
      * (1 + mass_int S (fun M => Wm M * bf M * n M) - mass_int S (fun M => M / s_rho S z * bf M * n M)) ^ 2
      * trunc2 (s_k2 S) (s_kvec S k).
  Proof.
    intros Hb Hr H Hrho P3 P4. destruct (mm_form S r Hb Hr H) as (pl & E & F & _).
    exists pl. split; [exact E|]. rewrite F, Im_RInt by assumption. reflexivity.
  Qed.
End Sampled.

(** ** The two-halo galaxy bias is the linear bias of the HOD *)
Lemma node_bias S b j z k : valid_z (hctx S) -> valid_mass (hctx S) -> (b < zbins (s_hod_set S))%nat ->
  (j < nz (s_hod_set S))%nat -> (z < s_nz S)%nat -> s_zvec S z = hod_z (s_hod_set S) b j ->
  galaxies_exist S b z -> (forall m, (m < s_nm S)%nat -> u_sat S z k m = 1) ->
  Ic_term S b z k = galaxy_linear_bias_cen (hctx S) (s_hod S) b z /\
  Is_term S b z k = galaxy_linear_bias_sat (hctx S) (s_hod S) b z.
Proof.
  intros Hz Hm Hb Hj Hi E [G1 G2] Hu.
  destruct (fractions_ratio (hctx S) (s_hod S) b j z Hz Hb Hj E) as [Fc Fs].
  assert (Nc : forall m, hod_cen (hctx S) (s_hod S) b z m = compute_hod_cen (hctx S) (s_hod S) b j m).
  { intros m. apply (z_interp_node (hctx S) Extrapolate (fun b j => compute_hod_cen (hctx S) (s_hod S) b j m) b z j); assumption. }
  assert (Ns : forall m, hod_sat (hctx S) (s_hod S) b z m = compute_hod_sat (hctx S) (s_hod S) b j m).
  { intros m. apply (z_interp_node (hctx S) Extrapolate (fun b j => compute_hod_sat (hctx S) (s_hod S) b j m) b z j); assumption. }
  assert (Nt : number_density (hctx S) (s_hod S) b z = ntot (hctx S) (s_hod S) b j).
  { apply (z_interp_node (hctx S) Extrapolate (ntot (hctx S) (s_hod S)) b z j); assumption. }
  assert (Bc : galaxy_linear_bias_cen (hctx S) (s_hod S) b z = bg_cen (hctx S) (s_hod S) b j).
  { apply (z_interp_node (hctx S) Extrapolate (bg_cen (hctx S) (s_hod S)) b z j); assumption. }
  assert (Bs : galaxy_linear_bias_sat (hctx S) (s_hod S) b z = bg_sat (hctx S) (s_hod S) b j).
  { apply (z_interp_node (hctx S) Extrapolate (bg_sat (hctx S) (s_hod S)) b z j); assumption. }
  assert (Hnm : (1 <= s_nm S)%nat) by apply Hm.
  rewrite Bc, Bs. unfold bg_cen, bg_sat, bias_integral, Ic_term, Is_term, Ig_term.
  change (c_nm (hctx S)) with (s_nm S). change (c_mass (hctx S)) with (s_mass S).
  split; unfold Rdiv at 2 3; rewrite (Rmult_comm (simpson _ _ _)), <- simpson_scal;
    (apply simpson_ext; [exact Hnm| |reflexivity]); intros m Hlt;
    pose proof (mass_pos (hctx S) m Hm Hlt) as Hpos; change (c_mass (hctx S)) with (s_mass S) in Hpos.
  - unfold cen_profile, sF_c, sN_c, sn_c. rewrite Fc, Nc, Nt.
    rewrite (dndlnm_at_node (hctx S) b j z m), (bias_at_node (hctx S) b j z m) by assumption.
    change (c_bias (hctx S) z m) with (s_bias S z m). change (c_dndlnm (hctx S) z m) with (s_dndlnm S z m).
    unfold Rdiv. transitivity (/ ntot (hctx S) (s_hod S) b j * (compute_hod_cen (hctx S) (s_hod S) b j m *
      s_bias S z m * s_dndlnm S z m * / s_mass S m)
      * (number_density_cen (hctx S) (s_hod S) b z * / number_density_cen (hctx S) (s_hod S) b z)); [ring|].
    rewrite Rinv_r by exact G1. ring.
  - unfold sat_profile, sF_s, sN_s, sn_s. rewrite Fs, Ns, Nt, Hu by exact Hlt.
    rewrite (dndlnm_at_node (hctx S) b j z m), (bias_at_node (hctx S) b j z m) by assumption.
    change (c_bias (hctx S) z m) with (s_bias S z m). change (c_dndlnm (hctx S) z m) with (s_dndlnm S z m).
    unfold Rdiv. transitivity (/ ntot (hctx S) (s_hod S) b j * (compute_hod_sat (hctx S) (s_hod S) b j m *
      s_bias S z m * s_dndlnm S z m * / s_mass S m)
      * (number_density_sat (hctx S) (s_hod S) b z * / number_density_sat (hctx S) (s_hod S) b z)); [ring|].
    rewrite Rinv_r by exact G2. ring.
Qed.

Lemma gg_bias_is_hod_bias S r b j z k : valid_z (hctx S) -> valid_mass (hctx S) ->
  (b < zbins (s_hod_set S))%nat -> (j < nz (s_hod_set S))%nat -> (z < s_nz S)%nat ->
  s_zvec S z = hod_z (s_hod_set S) b j -> galaxies_exist S b z ->
  (forall m, (m < s_nm S)%nat -> u_sat S z k m = 1) -> power_spectrum_gg S = Ok r ->
  exists beta, pk_bias r = Some beta /\
    beta b z k = Rabs (galaxy_linear_bias (hctx S) (s_hod S) b z).
Proof.
  intros Hz Hm Hb Hj Hi E Hg Hu H. destruct (gg_bias S r H) as (beta & Eb & Hbeta).
  exists beta. split; [exact Eb|]. rewrite Hbeta.
  destruct (node_bias S b j z k Hz Hm Hb Hj Hi E Hg Hu) as [-> ->].
  rewrite <- bias_split. reflexivity.
Qed.
