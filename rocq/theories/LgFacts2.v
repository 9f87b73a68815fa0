(** The redshifts of a legacy run one at a time, and the class on the same choices. *)
From Coquelicot Require Import Coquelicot.
From Verif Require Import Base BaseFacts Quad FftModel HmiModel HmiSpec HmiFacts3 HmiFacts4 HmiFacts5 ChainModel MiniModel LgModel LgSpec LgFacts.
Open Scope R_scope.

Lemma nth_error_map' {A B} (f : A -> B) l j x d : nth_error l j = Some x -> nth j (map f l) d = f x.
Proof. intros E. apply nth_error_nth. rewrite nth_error_map, E. reflexivity. Qed.

(** *** The growth equation *)
Lemma lg_w_eq w0 wa a : 0 < a -> lg_w a w0 wa = cpl_w w0 wa (-1 + 1 / a).
Proof. intros Ha. unfold lg_w, cpl_w. field. split; [|lra]. replace (a + (- a + 1)) with 1 by ring. lra. Qed.
Lemma lg_X_eq w0 wa a : 0 < a -> lg_X a w0 wa = cpl_de w0 wa (-1 + 1 / a).
Proof.
  intros Ha. unfold lg_X, cpl_de. replace (1 + (-1 + 1 / a)) with (/ a) by (field; lra).
  pose proof (Rinv_0_lt_compat a Ha) as Hi. rewrite !fpow_pos by assumption.
  f_equal; [|f_equal; field; lra].
  unfold Rpower. rewrite ln_Rinv by exact Ha. f_equal. ring.
Qed.
Section Growth.
  Variables (w0 wa : R) (c : cosmo).
  Hypothesis Hw : co_w c = cpl_w w0 wa.
  Hypothesis Hd : co_de c = cpl_de w0 wa.
  Lemma lg_hubble a : 0 < a -> lg_Hubble2 a (lg_Om c) (lg_Ode c) (co_Ok0 c) w0 wa = Hubble2 c a (g_Om c) (g_Ode c) (g_Ok c).
  Proof. intros Ha. unfold lg_Hubble2, Hubble2. rewrite Hd, lg_X_eq by exact Ha. reflexivity. Qed.
  Lemma lg_omega a : 0 < a -> lg_Omega_m a (lg_Om c) (lg_Ode c) (co_Ok0 c) w0 wa = Omega_m c a (g_Om c) (g_Ode c) (g_Ok c).
  Proof. intros Ha. unfold lg_Omega_m, Omega_m. rewrite lg_hubble by exact Ha. reflexivity. Qed.
  Lemma lg_f_eq : lg_f c w0 wa = g_f c.
  Proof. unfold lg_f, g_f. rewrite lg_omega by lra. reflexivity. Qed.
  Lemma same_growth : lg_d_init c w0 wa = d_init c /\ lg_v_init c w0 wa = v_init c /\
    (forall a d v, 0 < a -> lg_rhs c w0 wa a d v = growth_rhs c a d v).
  Proof.
    split; [unfold lg_d_init, d_init; rewrite lg_f_eq; reflexivity|].
    split; [unfold lg_v_init, v_init; rewrite lg_f_eq; reflexivity|].
    intros a d v Ha. unfold lg_rhs, growth_rhs. rewrite lg_hubble, lg_omega by exact Ha.
    unfold lg_AH, AH. rewrite Hw, Hd, <- lg_w_eq, <- lg_X_eq by exact Ha. reflexivity.
  Qed.
End Growth.
Lemma same_accumulated g a : lg_accumulated a g = accumulated_growth g a.
Proof. reflexivity. Qed.
Lemma same_thresholds c g G z :
  lg_dc_Mead (scale_factor z) (co_Om c z + co_Onu c z) (co_Onu0 c / (co_Om0 c + co_Onu0 c)) g G = dc_Mead c g G z /\
  lg_Dv_Mead (scale_factor z) (co_Om c z + co_Onu c z) (co_Onu0 c / (co_Om0 c + co_Onu0 c)) g G = Dv_Mead c g G z.
Proof. split; reflexivity. Qed.

(** *** One redshift at a time *)
Section Runs.
  Variable dset : dict -> dict -> dict.
  Variable mset : string -> string -> dict -> dict.
  Variable astro : list R -> cosmo.
  Variable growth : cosmo -> R -> R.
  Variable root : (R -> R) -> option R.
  Variable sigma8 : dblock -> hpar -> R.
  Variable variance : dblock -> hpar -> R -> R.
  Variable rd : dblock -> list R -> lg_reads.
  Hypothesis HL : setting_law dset.
  Hypothesis ML : model_law mset.
  Hypothesis H8 : forall b, profile_free (sigma8 b).
  Hypothesis HV : forall b, profile_free (variance b).
  Notation exec := (lg_execute dset mset astro growth root sigma8 variance rd).
  Notation turn := (lg_turn dset mset growth root sigma8 variance).
  Notation rows := (rows_of dset mset growth root sigma8 variance).

  Lemma chain_is_fresh cfg x0 bs :
    lg_chain dset mset astro growth root sigma8 variance rd cfg x0 bs = map (fun b => snd (exec cfg x0 b)) bs.
  Proof. apply chain_fresh; [exact HL|exact ML|exact H8|exact HV|apply good_start]. Qed.

  Lemma exec_eq cfg x0 b : snd (exec cfg x0 b) =
    (i <- lg_read astro cfg b ;; r <- rows x0 cfg b i (lc_z cfg) ;; lg_tables rd b i r).
  Proof. apply exec_rows; assumption. Qed.

  Lemma read_only cfg z b : lg_read astro (only cfg z) b = lg_read astro cfg b.
  Proof. reflexivity. Qed.
  Lemma turn_only cfg z b i x z' : turn (only cfg z) b i x z' = turn cfg b i x z'.
  Proof. reflexivity. Qed.

  Lemma exec_ok cfg x0 b o : snd (exec cfg x0 b) = Ok o ->
    exists i rs, lg_read astro cfg b = Ok i /\ rows x0 cfg b i (lc_z cfg) = Ok rs /\ lg_tables rd b i rs = Ok o.
  Proof.
    rewrite exec_eq. destruct (lg_read astro cfg b) as [i|e]; cbn [bind]; [|discriminate].
    destruct (rows x0 cfg b i (lc_z cfg)) as [rs|e] eqn:E; cbn [bind]; [|discriminate]. intros T.
    exists i, rs. auto.
  Qed.

  Lemma only_ok cfg x0 b i z r : lg_read astro cfg b = Ok i -> snd (turn cfg b i x0 z) = Ok r ->
    snd (exec (only cfg z) x0 b) = lg_tables rd b i [r].
  Proof.
    intros Hi Ht. rewrite exec_eq, read_only, Hi. cbn [bind only lc_z rows_of].
    change (snd (turn (only cfg z) b i x0 z)) with (snd (turn cfg b i x0 z)). rewrite Ht. reflexivity.
  Qed.

  Lemma one_redshift cfg x0 b o : snd (exec cfg x0 b) = Ok o -> forall j, (j < List.length (lc_z cfg))%nat ->
    exists o', snd (exec (only cfg (nth j (lc_z cfg) 0)) x0 b) = Ok o' /\ out_k o' = out_k o /\
      out_c_cen o' = [nth j (out_c_cen o) []] /\ out_c_sat o' = [nth j (out_c_sat o) []] /\
      out_rs_cen o' = [nth j (out_rs_cen o) []] /\ out_rs_sat o' = [nth j (out_rs_sat o) []] /\
      out_u_cen o' = [nth j (out_u_cen o) []] /\ out_u_sat o' = [nth j (out_u_sat o) []] /\
      out_mean o' = [nth j (out_mean o) 0] /\ out_rho_halo o' = [nth j (out_rho_halo o) 0] /\
      out_dndlnm o' = [nth j (out_dndlnm o) []] /\ out_nu o' = [nth j (out_nu o) []] /\
      out_neff o' = [nth j (out_neff o) 0] /\ out_s8 o' = [nth j (out_s8 o) 0] /\
      out_bias o' = [nth j (out_bias o) []] /\ out_fnu o' = out_fnu o /\
      (j = 0%nat -> out_rvir_cen o' = out_rvir_cen o /\ out_rvir_sat o' = out_rvir_sat o) /\
      (S j = List.length (lc_z cfg) -> out_mean0 o' = out_mean0 o /\ out_rho_crit o' = out_rho_crit o).
  Proof.
    intros E j Hj. destruct (exec_ok _ _ _ _ E) as (i & rs & Hi & Hr & Ht).
    destruct (proj1 (rows_split _ _ _ _ _ _ _ _ _ _ _ _) Hr) as [L N].
    destruct (N j Hj) as (r & Er & Tr). unfold lg_tables in Ht. destruct rs as [|r0 rs']; [discriminate|].
    eexists. split; [rewrite (only_ok cfg x0 b i _ r Hi Tr); cbn [lg_tables]; reflexivity|].
    apply (f_equal (fun r => match r with Ok v => v | Err _ => o end)) in Ht. cbv beta iota zeta in Ht. subst o.
    cbn [out_k out_c_cen out_c_sat out_rs_cen out_rs_sat out_u_cen out_u_sat out_mean out_rho_halo out_dndlnm out_nu
         out_neff out_s8 out_bias out_fnu out_rvir_cen out_rvir_sat out_mean0 out_rho_crit last].
    rewrite !(nth_error_map' _ _ _ _ _ Er). cbn [map].
    repeat (split; [reflexivity|]). split.
    - intros ->. injection Er as <-. split; reflexivity.
    - intros El. assert (Q : last (r0 :: rs') r0 = r).
      { rewrite <- (nth_error_nth (r0 :: rs') j r0 Er). clear - L El. rewrite <- L in El.
        assert (Z : forall (l : list lg_row) d, nth (List.length l - 1) l d = last l d).
        { induction l as [|y l IH]; intros d; [reflexivity|]. destruct l as [|y' l]; [reflexivity|].
          cbn [List.length last]. replace (S (S (List.length l)) - 1)%nat with (S (List.length (y' :: l) - 1)) by (cbn; lia).
          cbn [nth]. apply IH. }
        rewrite <- Z. f_equal. lia. }
      change (match rs' with [] => r0 | _ :: _ => last rs' r0 end) with (last (r0 :: rs') r0). rewrite Q. split; reflexivity.
  Qed.

  Lemma when_fails cfg x0 b : lc_z cfg <> [] ->
    (exists o, snd (exec cfg x0 b) = Ok o) <->
    (forall z, In z (lc_z cfg) -> exists o, snd (exec (only cfg z) x0 b) = Ok o).
  Proof.
    intros Hz. split.
    - intros [o E] z Iz. destruct (In_nth _ _ 0 Iz) as (j & Hj & <-).
      destruct (one_redshift cfg x0 b o E j Hj) as (o' & E' & _). exists o'. exact E'.
    - intros A. rewrite exec_eq.
      assert (exists i, lg_read astro cfg b = Ok i) as [i Hi].
      { destruct (lc_z cfg) as [|z zs]; [congruence|]. destruct (A z (or_introl eq_refl)) as [o E].
        destruct (exec_ok _ _ _ _ E) as (i & _ & Hi & _). exists i. exact Hi. }
      rewrite Hi. cbn [bind].
      destruct (proj2 (rows_fail dset mset growth root sigma8 variance x0 cfg b i (lc_z cfg))) as [rs Hr].
      { intros z Iz. destruct (A z Iz) as [o E]. destruct (exec_ok _ _ _ _ E) as (i' & rs & Hi' & Hr & _).
        rewrite read_only, Hi in Hi'. injection Hi' as <-. cbn [only lc_z rows_of] in Hr.
        change (snd (turn (only cfg z) b i x0 z)) with (snd (turn cfg b i x0 z)) in Hr.
        destruct (snd (turn cfg b i x0 z)) as [r|e]; [exists r; reflexivity|discriminate]. }
      rewrite Hr. cbn [bind]. destruct (proj1 (rows_split _ _ _ _ _ _ _ _ _ _ _ _) Hr) as [L _].
      destruct rs as [|r rs]; [destruct (lc_z cfg); [congruence|discriminate]|]. eexists. reflexivity.
  Qed.
  Lemma no_redshift cfg x0 b : lc_z cfg = [] ->
    (exists e, lg_read astro cfg b = Err e /\ snd (exec cfg x0 b) = Err e) \/ snd (exec cfg x0 b) = Err "IndexError"%string.
  Proof.
    intros Ez. rewrite exec_eq, Ez. destruct (lg_read astro cfg b) as [i|e]; [right; reflexivity|].
    left. exists e. split; reflexivity.
  Qed.
End Runs.
