(** The module on a concrete block (PkExample.v): it runs, and where it departs from Spectra. *)
From Coq Require Import ZArith Lia Lra.
From Verif Require Import Base Spec Quad QuadFacts Interp InterpFacts IaModel NumFacts HodModel PkModel PkSpec PkFacts2 PkExample PipeModel OptModel FftModel ChainModel AupModel AupSpec LiaModel LiaSpec LhModel LhSpec LhFacts LhFacts5 LrModel LkModel LkSpec LkSpec2 LkFacts4 LkFacts5 LkFacts6 LkFacts7 LkFacts8 LkExample.
Open Scope R_scope.

Definition ex_pl : A2 := fun _ k => 1 + INR k.
Lemma ex_lin : pk_lin ex_S = Ok ex_pl. Proof. reflexivity. Qed.
Lemma pow2_incr n : incr n (fun k => 2 ^ k).
Proof. intros i _. cbn. pose proof (pow_lt 2 i ltac:(lra)). lra. Qed.
Lemma ex_plain : plain ex_S ex_pl.
Proof.
  split; try reflexivity; try (cbn; lia).
  - intros i _. cbn [s_zvec ex_S]. rewrite S_INR. lra.
  - apply pow2_incr.
  - apply pow2_incr.
  - intros i _. cbn. apply pow_lt. lra.
  - intros i _. cbn. apply pow_lt. lra.
  - intros j i _ _. unfold ex_pl. pose proof (pos_INR i). lra.
  - split; reflexivity.
  - intros j i m _ _ _. cbn. split; [reflexivity|lra].
Qed.
Lemma ex_hod_apart : hod_apart (kb_config ex_S).
Proof.
  split; [discriminate|]. split; [discriminate|]. intros p sfx I. unfold lk_bases in I. cbn in I. repeat (destruct I as [<-|I]; [discriminate|]). contradiction.
Qed.
Lemma ex_run dw : exists b', agreed_run true dw (kb_arrays ex_S) (kb_config ex_S) (kb ex_S ex_pl) b' ex_S ex_pl.
Proof.
  destruct (kb_runs ex_S ex_pl dw ex_plain) as (b' & E). exists b'. split; [exact (kb_asks ex_S ex_pl ex_plain)|]. split; [exact (kb_halos ex_S ex_pl dw ex_plain)|]. split; [exact ex_lin|]. split; [intros _; exact ex_hod_apart|exact E].
Qed.
Lemma ex_bin : agreed_bin (kb_config ex_S) (kb ex_S ex_pl) ex_S 1 0 "".
Proof.
  split; [reflexivity|]. split; [change (Z.to_nat 1) with 1%nat; lia|]. split; [left; split; reflexivity|]. split; [exact (kb_occupation ex_S ex_pl ex_plain)|discriminate].
Qed.
(** The two-halo table of the intrinsic spectrum is not the one of Spectra. *)
Lemma holds_unique v n m f g : holds_table v n m f -> holds_table v n m g -> forall j i, (j < n)%nat -> (i < m)%nat -> f j i = g j i.
Proof. intros (t & -> & L & V) (t' & E & L' & V') j i J I. injection E as <-. destruct (V j J) as [_ A]. destruct (V' j J) as [_ B]. rewrite <- (A i I), <- (B i I). reflexivity. Qed.
Lemma ex_II_differs dw b' r : agreed_run true dw (kb_arrays ex_S) (kb_config ex_S) (kb ex_S ex_pl) b' ex_S ex_pl -> power_spectrum_ii ex_S = Ok r ->
  ~ holds_result b' "intrinsic_power" "p_k_2h" ex_S (pk_2h r 0%nat).
Proof.
  intros (HA & HG & P & HH0 & E) R (_ & _ & T). assert (HH : kc_galaxy (kb_config ex_S) = true -> hod_apart (kb_config ex_S)) by (intro; apply HH0, galaxies_iff; assumption). destruct ex_bin as (NB & BN & BE & OA & RB).
  destruct (II_values true dw _ _ _ _ _ _ HA HG P HH E 1%Z 0%nat "" eq_refl NB BN BE OA RB r eq_refl (kb_alignment ex_S ex_pl ex_plain) (kb_effective ex_S ex_pl ex_plain) R) as (g & d & RF & _ & D & _ & _ & (_ & _ & T2) & _).
  change ("intrinsic_power" ++ "")%string with "intrinsic_power"%string in T2. assert (J : (1 < s_nz ex_S)%nat) by (cbn; lia). assert (I : (0 < s_nk ex_S)%nat) by (cbn; lia).
  pose proof (holds_unique _ _ _ _ _ T T2 1%nat 0%nat J I) as X. cbn beta in X. rewrite (D (or_introl eq_refl) 1%nat 0%nat J I), ex_Is_align, ex_Ic_align in X.
  destruct RF as [[_ G]|[G _]]; [|discriminate G]. rewrite G in X. assert (TP : 0 < t2i ex_S 0). { unfold t2i, trunc2_ia. cbn. apply exp_pos. }
  revert X. generalize (pk_2h r 0%nat 1%nat 0%nat). intros q X. change (ex_pl 1%nat 0%nat) with (1 + 0) in X. nra.
Qed.

(** ** Only the matter, with and without neutrinos *)
Definition matter_only (c : kconfig) : kconfig :=
  {| kc_mm := true; kc_gg := false; kc_gm := false; kc_gI := false; kc_mI := false; kc_II := false; kc_response := false; kc_fortuna := false; kc_bnl := false;
     kc_k1 := kc_k1 c; kc_k2 := kc_k2 c; kc_k1_ia := kc_k1_ia c; kc_k2_ia := kc_k2_ia c; kc_hod := kc_hod c; kc_mead := None; kc_dewiggle := false; kc_pm := false; kc_poisson := kc_poisson c; kc_pop := kc_pop c |}.
Definition set_fnu (b : dblock) (f : R) : dblock := bput b cosmology "fnu" (BDbl f).
Lemma set_fnu_is b f : reads (set_fnu b f) cosmology "fnu" f.
Proof. left. reflexivity. Qed.
Lemma set_fnu_else b f s n : s <> cosmology \/ n <> "fnu"%string -> set_fnu b f s n = b s n.
Proof. unfold set_fnu, bput. intros H. destruct (String.eqb_spec cosmology s) as [<-|]; destruct (String.eqb_spec "fnu" n) as [<-|]; cbn [andb]; try reflexivity. exfalso. destruct H as [H|H]; now apply H. Qed.
Lemma ex_neutrinos dw f : exists b0 b1, lk_execute true dw (kb_arrays ex_S) (matter_only (kb_config ex_S)) (kb ex_S ex_pl) = (b0, Ok tt) /\
  lk_execute true dw (kb_arrays ex_S) (matter_only (kb_config ex_S)) (set_fnu (kb ex_S ex_pl) f) = (b1, Ok tt).
Proof.
  destruct (kb_reads ex_S ex_pl dw ex_plain) as (x & nl & RD). change (lk_read dw (kb_arrays ex_S) (kb_config ex_S) (kb ex_S ex_pl)) with (lk_read dw (kb_arrays ex_S) (matter_only (kb_config ex_S)) (kb ex_S ex_pl)) in RD.
  destruct (read_fnu dw (kb_arrays ex_S) (matter_only (kb_config ex_S)) (kb ex_S ex_pl) (set_fnu (kb ex_S ex_pl) f) f eq_refl eq_refl (or_introl eq_refl) (set_fnu_is _ f) (set_fnu_else _ f) _ _ _ _ _ RD) as [_ RF].
  assert (ONE : forall b y, lk_read dw (kb_arrays ex_S) (matter_only (kb_config ex_S)) b = Ok (row (s_nz ex_S) (s_zvec ex_S), row (s_nk ex_S) (s_kvec ex_S), row (s_nm ex_S) (s_mass ex_S), y, nl) ->
    exists d, lk_execute true dw (kb_arrays ex_S) (matter_only (kb_config ex_S)) b = (d, Ok tt)).
  { intros b y Y. unfold lk_execute. rewrite Y. change (lk_profile (matter_only (kb_config ex_S)) b y) with (Ok (Some (W_m y (x_fnu y)))). cbn iota.
    destruct (puts_over (mm_puts (matter_only (kb_config ex_S)) (row (s_nz ex_S) (s_zvec ex_S)) (row (s_nk ex_S) (s_kvec ex_S)) y (Some (W_m y (x_fnu y)))) b) as (d & D).
    { intros p I. cbn in I. repeat (destruct I as [<-|I]; [repeat eexists|]). contradiction. }
    rewrite D. now exists d. }
  destruct (ONE _ _ RD) as (b0 & E0). destruct (ONE _ _ RF) as (b1 & E1). exists b0, b1. auto.
Qed.
