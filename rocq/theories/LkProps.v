(** Properties C129-C130: the legacy power-spectrum module
    (cosmosis_modules/legacy/pk/pk_interface.py, pk_lib.py) against Spectra (src/onepower/pk.py). *)
From Coq Require Import ZArith Lia Lra.
From Verif Require Import Base Spec Quad QuadFacts Interp IaModel HodModel PkModel PkSpec PkExample PipeModel OptModel FftModel ChainModel AupModel AupSpec LiaModel LiaSpec LhModel LhSpec LhSpec2 LhFacts LrModel LkModel LkSpec LkSpec2 LkSpec3 LkFacts4 LkFacts5 LkFacts6 LkFacts7 LkFacts8 LkFacts9 LkExample.
Open Scope R_scope.

(** ** C129  The tables and Spectra *)
(** The three matter tables are those of Spectra, in the section the response selects. *)
Theorem C129_matter : forall over dw nd c b b' S pl s nb r, agreed_run over dw nd c b b' S pl -> matter_section c s -> baryons_agree c b S nb ->
  power_spectrum_mm_raw S = Ok r -> holds_spectrum b' s S r nb.
Proof.
  intros over dw nd c b b' S pl s nb r (HA & HG & P & HH0 & E) (KM & MS) BA R. apply matter_iff in KM. assert (HH : kc_galaxy c = true -> hod_apart c) by (intro; apply HH0, galaxies_iff; assumption).
  assert (X : matters c = true /\ s = msec c).
  { unfold matters, msec. rewrite KM. destruct MS as [[-> ->]|(-> & -> & ->)]; split; try reflexivity. now destruct (kc_mm c). }
  destruct X as [M ->]. exact (matter_values over dw nd c b b' S pl HA HG P HH E nb r M BA R).
Qed.
Print Assumptions C129_matter.
Ltac open_run := intros over dw nd c b b' S pl n nb sfx r (HA & HG & P & HH0 & E) (NB & BN & BE & OA & RB); assert (HH : kc_galaxy c = true -> hod_apart c) by (intro; apply HH0, galaxies_iff; assumption).
(** The galaxy tables and the linear bias. *)
Theorem C129_galaxy : forall over dw nd c b b' S pl n nb sfx r, agreed_run over dw nd c b b' S pl -> agreed_bin c b S n nb sfx ->
  kc_gg c = true -> poisson_agrees c b S -> power_spectrum_gg S = Ok r ->
  holds_spectrum b' ("galaxy_power" ++ sfx) S r nb /\ exists bias, pk_bias r = Some bias /\ holds_result b' ("galaxy_linear_bias" ++ sfx) "bg_linear" S (bias nb).
Proof.
  open_run. intros ON PA R. assert (GA : kc_galaxy c = true) by (unfold kc_galaxy; now rewrite ON).
  exact (gg_values over dw nd c b b' S pl HA HG P HH E n nb sfx GA NB BN BE OA RB r ON PA R).
Qed.
Print Assumptions C129_galaxy.
(** The galaxy-matter tables and their bias. *)
Theorem C129_galaxy_matter : forall over dw nd c b b' S pl n nb sfx r, agreed_run over dw nd c b b' S pl -> agreed_bin c b S n nb sfx ->
  kc_gm c = true -> baryons_agree c b S nb -> stars_agree c b n nb S -> power_spectrum_gm S = Ok r ->
  holds_spectrum b' ("matter_galaxy_power" ++ sfx) S r nb /\ exists bias, pk_bias r = Some bias /\ holds_result b' ("galaxy_matter_linear_bias" ++ sfx) "bgm_linear" S (bias nb).
Proof.
  open_run. intros ON BA SA R. assert (GA : kc_galaxy c = true) by (unfold kc_galaxy; rewrite ON; now destruct (kc_gg c)).
  exact (gm_values over dw nd c b b' S pl HA HG P HH E n nb sfx GA NB BN BE OA RB r ON (conj BA SA) R).
Qed.
Print Assumptions C129_galaxy_matter.
(** The galaxy-intrinsic tables. *)
Theorem C129_galaxy_intrinsic : forall over dw nd c b b' S pl n nb sfx r, agreed_run over dw nd c b b' S pl -> agreed_bin c b S n nb sfx ->
  kc_gI c = true -> alignment_agrees c b n nb S -> effective_agrees c b S -> power_spectrum_gi S = Ok r ->
  holds_spectrum b' ("galaxy_intrinsic_power" ++ sfx) S r nb.
Proof.
  open_run. intros ON AA EA R. assert (GA : kc_galaxy c = true) by (unfold kc_galaxy, kc_align; rewrite ON; now destruct (kc_gg c), (kc_gm c)).
  exact (gI_values over dw nd c b b' S pl HA HG P HH E n nb sfx GA NB BN BE OA RB r ON AA EA R).
Qed.
Print Assumptions C129_galaxy_intrinsic.
(** The matter-intrinsic tables: with beta_nl the two-halo table lacks the beta_nl term, before the response [g];
    the total has it. *)
Theorem C129_matter_intrinsic : forall over dw nd c b b' S pl n nb sfx r, agreed_run over dw nd c b b' S pl -> agreed_bin c b S n nb sfx ->
  kc_mI c = true -> baryons_agree c b S nb -> stars_agree c b n nb S -> alignment_agrees c b n nb S -> effective_agrees c b S -> power_spectrum_mi S = Ok r ->
  exists g d, response_factor S nb g /\ (s_mode S <> Bnl -> within_grid S d (fun _ _ => 0)) /\
    (s_mode S = Bnl -> forall B inl, beta_nl S = Ok B -> I_NL S (gal_align S) (matter_profile S) B = Ok inl -> within_grid S d (fun j i => pl j i * inl nb j i)) /\
    holds_shifted b' ("matter_intrinsic_power" ++ sfx) S r nb d g.
Proof.
  open_run. intros ON BA SA AA EA R. assert (GA : kc_galaxy c = true) by (unfold kc_galaxy, kc_align; rewrite ON; now destruct (kc_gg c), (kc_gm c), (kc_gI c)).
  exact (mI_values over dw nd c b b' S pl HA HG P HH E n nb sfx GA NB BN BE OA RB r ON (conj BA SA) AA EA R).
Qed.
Print Assumptions C129_matter_intrinsic.
(** The intrinsic tables: only with Fortuna is the two-halo table that of Spectra.  Otherwise the central-satellite
    term replaces the satellite-satellite term, so it is off by P I_s (I_c - I_s), truncated; the total is right. *)
Theorem C129_intrinsic : forall over dw nd c b b' S pl n nb sfx r, agreed_run over dw nd c b b' S pl -> agreed_bin c b S n nb sfx ->
  kc_II c = true -> alignment_agrees c b n nb S -> effective_agrees c b S -> power_spectrum_ii S = Ok r ->
  exists g d, response_factor S nb g /\ (s_mode S = PkModel.Fortuna -> within_grid S d (fun _ _ => 0)) /\
    (s_mode S = NoNl \/ s_mode S = Hmcode -> within_grid S d (fun j i => pl j i * Is_align S nb j i * (Ic_align S nb j i - Is_align S nb j i) * t2i S i)) /\
    (s_mode S = Bnl -> forall B iss ics, beta_nl S = Ok B -> I_NL S (sat_align S) (sat_align S) B = Ok iss -> I_NL S (cen_align S) (sat_align S) B = Ok ics ->
       within_grid S d (fun j i => pl j i * (Is_align S nb j i * (Ic_align S nb j i - Is_align S nb j i) + (ics nb j i - iss nb j i)))) /\
    holds_shifted b' ("intrinsic_power" ++ sfx) S r nb d g.
Proof.
  open_run. intros ON AA EA R. assert (GA : kc_galaxy c = true) by (unfold kc_galaxy, kc_align; rewrite ON; now destruct (kc_gg c), (kc_gm c), (kc_gI c), (kc_mI c)).
  exact (II_values over dw nd c b b' S pl HA HG P HH E n nb sfx GA NB BN BE OA RB r ON AA EA R).
Qed.
Print Assumptions C129_intrinsic.
(** So the two-halo table of the intrinsic spectrum is not, in general, that of Spectra. *)
Theorem C129_intrinsic_refuted : exists dw nd c b b' S pl r, agreed_run true dw nd c b b' S pl /\ agreed_bin c b S 1 0 "" /\ kc_II c = true /\
  alignment_agrees c b 1 0 S /\ effective_agrees c b S /\ power_spectrum_ii S = Ok r /\ ~ holds_result b' "intrinsic_power" "p_k_2h" S (pk_2h r 0%nat).
Proof.
  pose (dw := fun (_ : dblock) (_ : list R) (p : A2) => Ok p). destruct (ex_run dw) as (b' & E). destruct (power_spectrum_ii ex_S) as [r|e] eqn:R.
  2:{ exfalso. destruct (proj2 ex_ok PkSpec.II) as (r & X). change (PkSpec.power_spectrum PkSpec.II ex_S) with (power_spectrum_ii ex_S) in X. rewrite R in X. discriminate. }
  exists dw, (kb_arrays ex_S), (kb_config ex_S), (kb ex_S ex_pl), b', ex_S, ex_pl, r. split; [exact E|]. split; [exact ex_bin|]. split; [reflexivity|].
  split; [exact (kb_alignment ex_S ex_pl ex_plain)|]. split; [exact (kb_effective ex_S ex_pl ex_plain)|]. split; [exact R|]. exact (ex_II_differs _ _ _ E R).
Qed.
Print Assumptions C129_intrinsic_refuted.
(** The neutrino fraction f multiplies the one-halo matter table by (1 - f)^2 and leaves the two-halo table as it is. *)
Theorem C129_neutrinos : forall over dw nd c b0 b1 b0' b1' f s, kc_mead c = None -> kc_dewiggle c = false -> reads b0 cosmology "fnu" 0 -> reads b1 cosmology "fnu" f ->
  (forall t n, t <> cosmology \/ n <> "fnu"%string -> b1 t n = b0 t n) -> (asks_galaxies c -> hod_apart c) -> matter_section c s ->
  lk_execute over dw nd c b0 = (b0', Ok tt) -> lk_execute over dw nd c b1 = (b1', Ok tt) ->
  exists nz nk p p2, holds_table (b0' s "p_k_1h"%string) nz nk p /\ holds_table (b1' s "p_k_1h"%string) nz nk (fun j i => (1 - f) ^ 2 * p j i) /\
    holds_table (b0' s "p_k_2h"%string) nz nk p2 /\ holds_table (b1' s "p_k_2h"%string) nz nk p2.
Proof.
  intros over dw nd c b0 b1 b0' b1' f s NM ND F0 F1 E HH0 (KM & MS) E0 E1. apply matter_iff in KM. assert (HH : kc_galaxy c = true -> hod_apart c) by (intro; apply HH0, galaxies_iff; assumption). assert (X : matters c = true /\ s = msec c).
  { unfold matters, msec. rewrite KM. destruct MS as [[-> ->]|(-> & -> & ->)]; split; try reflexivity. now destruct (kc_mm c). }
  destruct X as [M ->]. exact (neutrino_mm dw nd c b0 b1 f NM ND F0 F1 E over b0' b1' HH M E0 E1).
Qed.
Print Assumptions C129_neutrinos.
(** A block on which the module computes all six spectra, agreeing with a Spectra of three redshifts, three wavenumbers and five masses. *)
Example C129_case : forall dw, exists b', agreed_run true dw (kb_arrays ex_S) (kb_config ex_S) (kb ex_S ex_pl) b' ex_S ex_pl /\ agreed_bin (kb_config ex_S) (kb ex_S ex_pl) ex_S 1 0 "" /\
  matter_section (kb_config ex_S) "matter_power_nl" /\ baryons_agree (kb_config ex_S) (kb ex_S ex_pl) ex_S 0 /\ stars_agree (kb_config ex_S) (kb ex_S ex_pl) 1 0 ex_S /\
  poisson_agrees (kb_config ex_S) (kb ex_S ex_pl) ex_S /\ alignment_agrees (kb_config ex_S) (kb ex_S ex_pl) 1 0 ex_S /\ effective_agrees (kb_config ex_S) (kb ex_S ex_pl) ex_S /\
  (exists r, power_spectrum_mm_raw ex_S = Ok r) /\ forall x, exists r, PkSpec.power_spectrum x ex_S = Ok r.
Proof.
  intros dw. destruct (ex_run dw) as (b' & E). exists b'. split; [exact E|]. split; [exact ex_bin|]. split; [split; [now left|]; right; repeat split|]. split; [exact I|]. split; [exact (kb_stars ex_S ex_pl)|].
  split; [exact (kb_poisson ex_S ex_pl ex_plain)|]. split; [exact (kb_alignment ex_S ex_pl ex_plain)|]. split; [exact (kb_effective ex_S ex_pl ex_plain)|].
  split; [exact (proj1 ex_ok)|exact (proj2 ex_ok)].
Qed.
(** A tenth of neutrinos: 81 hundredths of the one-halo table. *)
Example C129_neutrinos_case : forall dw, exists b0' b1' nz nk p, lk_execute true dw (kb_arrays ex_S) (matter_only (kb_config ex_S)) (kb ex_S ex_pl) = (b0', Ok tt) /\
  lk_execute true dw (kb_arrays ex_S) (matter_only (kb_config ex_S)) (set_fnu (kb ex_S ex_pl) (1 / 10)) = (b1', Ok tt) /\
  holds_table (b0' "matter_power_nl"%string "p_k_1h"%string) nz nk p /\ holds_table (b1' "matter_power_nl"%string "p_k_1h"%string) nz nk (fun j i => (1 - 1 / 10) ^ 2 * p j i).
Proof.
  intros dw. destruct (ex_neutrinos dw (1 / 10)) as (b0 & b1 & E0 & E1). exists b0, b1.
  destruct (C129_neutrinos true dw (kb_arrays ex_S) (matter_only (kb_config ex_S)) (kb ex_S ex_pl) (set_fnu (kb ex_S ex_pl) (1 / 10)) b0 b1 (1 / 10) "matter_power_nl" eq_refl eq_refl (or_introl eq_refl) (set_fnu_is _ _) (set_fnu_else _ _) ltac:(intros [X|[X|[X|[X|X]]]]; discriminate X) (conj (or_introl eq_refl) (or_intror (conj eq_refl (conj eq_refl eq_refl)))) E0 E1) as (nz & nk & p & p2 & A & B & _).
  exists nz, nk, p. auto.
Qed.

(** ** C130  Options, effects and failures *)
(** setup succeeds exactly on the options it documents, and keeps what they say. *)
Theorem C130_options : forall missing wrong o c, lk_setup missing wrong o = Ok c <-> spectra_options o c.
Proof. exact lk_setup_iff. Qed.
Print Assumptions C130_options.
(** However the run ends, only the section of the matter power and those of the requested spectra of the bins change. *)
Theorem C130_frame : forall over dw nd c b b' r s m n, lk_execute over dw nd c b = (b', r) -> (asks_galaxies c -> hod_apart c) ->
  (asks_galaxies c -> b (kc_hod c) "nbins"%string = Some (BInt n)) -> ~ matter_section c s -> ~ (asks_galaxies c /\ bin_section c n s) -> b' s m = b s m.
Proof. intros over dw nd c b b' r s m n. rewrite !galaxies_iff. exact (lk_frame over dw nd c b b' r s m n). Qed.
Print Assumptions C130_frame.
(** Without a spectrum that involves matter, the others run only with the point mass or the fitted feedback: otherwise the profile is unbound. *)
Theorem C130_needs_matter : forall over dw nd c b b' n, ~ asks_matter c -> asks_galaxies c -> kc_pm c = false -> kc_mead c <> Some FitFeedback -> hod_apart c ->
  b (kc_hod c) "nbins"%string = Some (BInt n) -> (0 < n)%Z -> lk_execute over dw nd c b <> (b', Ok tt).
Proof. intros over dw nd c b b' n. rewrite matter_iff, galaxies_iff, Bool.not_true_iff_false. exact (needs_matter over dw nd c b b' n). Qed.
Print Assumptions C130_needs_matter.
(** Nor do they with the response, whatever the other options. *)
Theorem C130_response_needs_matter : forall over dw nd c b b' n, ~ asks_matter c -> asks_galaxies c -> kc_response c = true -> hod_apart c ->
  b (kc_hod c) "nbins"%string = Some (BInt n) -> (0 < n)%Z -> lk_execute over dw nd c b <> (b', Ok tt).
Proof. intros over dw nd c b b' n. rewrite matter_iff, galaxies_iff, Bool.not_true_iff_false. exact (response_needs_matter over dw nd c b b' n). Qed.
Print Assumptions C130_response_needs_matter.
(** The parameters of the Poisson factor have no usable default. *)
Theorem C130_poisson : forall over dw nd c b b' n, kc_gg c = true -> hod_apart c -> b (kc_hod c) "nbins"%string = Some (BInt n) -> (0 < n)%Z -> lk_execute over dw nd c b = (b', Ok tt) ->
  (kc_poisson c = "scalar"%string -> exists v, reads b "pk_parameters" "poisson" v) /\
  (kc_poisson c = "power_law"%string -> (exists v, reads b "pk_parameters" "poisson" v) /\ (exists v, reads b "pk_parameters" "M_0" v) /\ exists v, reads b "pk_parameters" "slope" v).
Proof. exact poisson_needs. Qed.
Print Assumptions C130_poisson.
(** beta_nl needs the array in memory. *)
Theorem C130_beta : forall over dw nd c b b', kc_bnl c = true -> lk_execute over dw nd c b = (b', Ok tt) -> exists B, nd_beta nd = BetaArray B.
Proof. exact bnl_needs. Qed.
Print Assumptions C130_beta.
(** With an overwriting block, a run either fails having changed nothing or leaves the matter tables of Spectra, whatever happens later. *)
Theorem C130_matter_kept : forall dw nd c b b' r S pl s nb ps, matter_section c s -> asks_alike c S -> halos_agree dw nd c b S pl -> pk_lin S = Ok pl -> (asks_galaxies c -> hod_apart c) ->
  baryons_agree c b S nb -> power_spectrum_mm_raw S = Ok ps -> lk_execute true dw nd c b = (b', r) ->
  (r <> Ok tt /\ forall t m, b' t m = b t m) \/ holds_spectrum b' s S ps nb.
Proof.
  intros dw nd c b b' r S pl s nb ps (KM & MS) HA HG P HH0 BA R E. apply matter_iff in KM. assert (HH : kc_galaxy c = true -> hod_apart c) by (intro; apply HH0, galaxies_iff; assumption). assert (X : matters c = true /\ s = msec c).
  { unfold matters, msec. rewrite KM. destruct MS as [[-> ->]|(-> & -> & ->)]; split; try reflexivity. now destruct (kc_mm c). }
  destruct X as [M ->]. exact (matter_kept dw nd c b b' r S pl nb ps M HA HG P HH BA R E).
Qed.
Print Assumptions C130_matter_kept.
(** Without the response and the de-wiggling, a module that writes the matter power ignores the non-linear power it was given, even with Fortuna:
    two blocks that differ only there end alike, with the same tables. *)
Theorem C130_own_power : forall dw nd c b1 b2, kc_response c = false -> matter_section c "matter_power_nl" -> kc_mead c <> Some NoFeedback -> kc_mead c <> Some Feedback -> kc_dewiggle c = false -> hod_apart c ->
  (forall s n, s <> "matter_power_nl"%string -> b1 s n = b2 s n) ->
  exists b1' b2' r, lk_execute true dw nd c b1 = (b1', r) /\ lk_execute true dw nd c b2 = (b2', r) /\
    ((b1' = b1 /\ b2' = b2 /\ r <> Ok tt) \/
     forall s m, s <> "matter_power_nl"%string \/ In m ["z"; "k_h"; "p_k_1h"; "p_k_2h"; "p_k"]%string -> b1' s m = b2' s m).
Proof.
  intros dw nd c b1 b2 NR (KM & MS) N1 N2 ND HH A. apply matter_iff in KM. assert (M : matters c = true). { unfold matters. rewrite KM. destruct MS as [[X _]|(_ & -> & _)]; [rewrite NR in X; discriminate|]. now destruct (kc_response c). }
  assert (NW : (meads c || kc_dewiggle c)%bool = false). { rewrite ND. unfold meads. destruct (kc_mead c) as [[| |]|]; try reflexivity; [now destruct N1|now destruct N2] || (exfalso; congruence). }
  exact (nonlinear_unread dw nd c NR M NW HH b1 b2 A).
Qed.
Print Assumptions C130_own_power.
(** The options of [kb_config], the canonical block and Fortuna meet these hypotheses. *)
Definition with_fortuna (c : kconfig) : kconfig :=
  {| kc_mm := kc_mm c; kc_gg := kc_gg c; kc_gm := kc_gm c; kc_gI := kc_gI c; kc_mI := kc_mI c; kc_II := kc_II c; kc_response := kc_response c; kc_fortuna := true; kc_bnl := kc_bnl c;
     kc_k1 := kc_k1 c; kc_k2 := kc_k2 c; kc_k1_ia := kc_k1_ia c; kc_k2_ia := kc_k2_ia c; kc_hod := kc_hod c; kc_mead := kc_mead c; kc_dewiggle := kc_dewiggle c; kc_pm := kc_pm c; kc_poisson := kc_poisson c; kc_pop := kc_pop c |}.
Example C130_own_power_case : exists c (b1 b2 : dblock), kc_fortuna c = true /\ kc_gI c = true /\ kc_response c = false /\ matter_section c "matter_power_nl" /\ kc_mead c <> Some NoFeedback /\ kc_mead c <> Some Feedback /\
  kc_dewiggle c = false /\ hod_apart c /\ (forall s n, s <> "matter_power_nl"%string -> b1 s n = b2 s n) /\ b1 "matter_power_nl"%string "p_k"%string <> b2 "matter_power_nl"%string "p_k"%string.
Proof.
  exists (with_fortuna (kb_config ex_S)), (kb ex_S ex_pl), (bput (kb ex_S ex_pl) "matter_power_nl" "p_k" (BTab [[1]])). repeat (split; [reflexivity|]). split; [split; [now left|right; repeat split]|].
  split; [discriminate|]. split; [discriminate|]. split; [reflexivity|]. split; [exact ex_hod_apart|]. split; [|discriminate].
  intros s n N. unfold bput. destruct (String.eqb_spec "matter_power_nl" s) as [<-|]; [now destruct N|reflexivity].
Qed.
Example C130_case : forall dw, exists b', lk_execute true dw (kb_arrays ex_S) (kb_config ex_S) (kb ex_S ex_pl) = (b', Ok tt) /\ hod_apart (kb_config ex_S) /\
  kb ex_S ex_pl "hod"%string "nbins"%string = Some (BInt 1) /\ ~ matter_section (kb_config ex_S) "hmf" /\ ~ bin_section (kb_config ex_S) 1 "hmf" /\ bin_section (kb_config ex_S) 1 "galaxy_power".
Proof.
  intros dw. destruct (kb_runs ex_S ex_pl dw ex_plain) as (b' & E). exists b'. split; [exact E|]. split; [exact ex_hod_apart|]. split; [reflexivity|]. split; [intros (_ & [[_ X]|(_ & _ & X)]); discriminate|].
  split. { intros (p & nb & sfx & I & _ & _ & X). cbn in I. repeat (destruct I as [<-|I]; [discriminate X|]). contradiction. }
  exists "galaxy_power"%string, 0%nat, ""%string. split; [cbn; tauto|]. split; [change (Z.to_nat 1) with 1%nat; lia|]. split; [left; split; reflexivity|reflexivity].
Qed.
