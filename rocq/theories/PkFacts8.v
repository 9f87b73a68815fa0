(** Alignment split into centrals and satellites; zero beta_nl. *)
From Coq Require Import FunctionalExtensionality.
From Coquelicot Require Import Coquelicot.
From Verif Require Import Base Spec Quad Interp HodModel HodSpec Dewiggle PkModel PkSpec BaseFacts QuadFacts
  InterpFacts NumFacts HodFacts HodFacts2 PkFacts PkFacts2 PkFacts3 PkFacts4 PkFacts5 PkFacts6 PkFacts7.
Open Scope R_scope.

(** ** Splitting the alignment *)
Lemma I_align_ext S p q b z k : (1 <= s_nm S)%nat -> (forall m, p b z k m = q b z k m) ->
  I_align S p b z k = I_align S q b z k.
Proof.
  intros Hn E. unfold I_align, Ig_term. rewrite E. f_equal. apply simpson_pw. intros. rewrite E. reflexivity.
Qed.

Lemma I_align_zero S p b z k : (forall m, p b z k m = 0) -> I_align S p b z k = 0.
Proof.
  intros E. unfold I_align, Ig_term. rewrite E.
  rewrite (simpson_pw _ _ (fun m => 0 * (s_bias S z m * s_dndlnm S z m / s_mass S m)))
    by (intros; rewrite E; unfold Rdiv; ring).
  rewrite simpson_scal. unfold Rdiv. ring.
Qed.

Lemma Is_only_centrals S b z k : Is_align (only_centrals S) b z k = 0.
Proof.
  apply I_align_zero. intros m. unfold sat_align, only_centrals. cbn [s_wkm with_wkm]. unfold Rdiv. ring.
Qed.
Lemma Ic_only_centrals S b z k : Ic_align (only_centrals S) b z k = Ic_align S b z k.
Proof. reflexivity. Qed.
Lemma Ic_only_satellites S b z k : Ic_align (only_satellites S) b z k = 0.
Proof.
  apply I_align_zero. intros m. unfold cen_align, C1, only_satellites. cbn [s_gi with_gi]. unfold Rdiv. ring.
Qed.
Lemma Is_only_satellites S b z k : Is_align (only_satellites S) b z k = Is_align S b z k.
Proof. reflexivity. Qed.

(** ii counts the central-satellite cross term once. *)
Lemma ii_cross S r rc rs b z k : s_mode S = NoNl \/ s_mode S = Hmcode -> s_response S = false ->
  power_spectrum_ii S = Ok r -> power_spectrum_ii (only_centrals S) = Ok rc ->
  power_spectrum_ii (only_satellites S) = Ok rs ->
  (pk_2h r b z k - (pk_2h rc b z k + pk_2h rs b z k)) ^ 2 = pk_2h rc b z k * pk_2h rs b z k.
Proof.
  intros Hm Hr H Hc Hs.
  destruct (ii_form S r Hm Hr H) as (pl & E & F & _).
  destruct (ii_form (only_centrals S) rc Hm Hr Hc) as (plc & Ec & Fc & _).
  destruct (ii_form (only_satellites S) rs Hm Hr Hs) as (pls & Es & Fs & _).
  change (pk_lin (only_centrals S)) with (pk_lin S) in Ec. change (pk_lin (only_satellites S)) with (pk_lin S) in Es.
  rewrite E in Ec, Es. injection Ec as <-. injection Es as <-.
  rewrite F, Fc, Fs, Is_only_centrals, Ic_only_satellites, Ic_only_centrals, Is_only_satellites.
  change (t2i (only_centrals S)) with (t2i S). change (t2i (only_satellites S)) with (t2i S). ring.
Qed.

(** gg doubles the central-satellite cross term; mi and gi are sums over centrals and satellites. *)
Lemma mi_split S r rc rs b z k : s_mode S = NoNl \/ s_mode S = Hmcode -> s_response S = false ->
  power_spectrum_mi S = Ok r -> power_spectrum_mi (only_centrals S) = Ok rc ->
  power_spectrum_mi (only_satellites S) = Ok rs ->
  pk_2h r b z k = pk_2h rc b z k + pk_2h rs b z k.
Proof.
  intros Hm Hr H Hc Hs. unfold power_spectrum_mi in *. cbv zeta in *.
  change (s_mode (only_centrals S)) with (s_mode S) in *. change (s_mode (only_satellites S)) with (s_mode S) in *.
  change (pk_lin (only_centrals S)) with (pk_lin S) in *. change (pk_lin (only_satellites S)) with (pk_lin S) in *.
  destruct Hm as [Hm|Hm]; rewrite Hm in *; inv_bind H; cbn [bind] in *;
    apply (respond_off _ _ _ Hr) in H; apply (respond_off (only_centrals S) _ _ Hr) in Hc;
    apply (respond_off (only_satellites S) _ _ Hr) in Hs; subst; cbn [pk_2h];
    rewrite Is_only_centrals, Ic_only_satellites, Ic_only_centrals, Is_only_satellites;
    change (t2i (only_centrals S)) with (t2i S); change (t2i (only_satellites S)) with (t2i S);
    change (Im_term (only_centrals S)) with (Im_term S); change (Im_term (only_satellites S)) with (Im_term S); ring.
Qed.

Lemma gi_split S r rc rs b z k : s_mode S = NoNl \/ s_mode S = Hmcode -> s_response S = false ->
  power_spectrum_gi S = Ok r -> power_spectrum_gi (only_centrals S) = Ok rc ->
  power_spectrum_gi (only_satellites S) = Ok rs ->
  pk_2h r b z k = pk_2h rc b z k + pk_2h rs b z k.
Proof.
  intros Hm Hr H Hc Hs.
  destruct (gi_form S r Hm Hr H) as (pl & E & F & _).
  destruct (gi_form (only_centrals S) rc Hm Hr Hc) as (plc & Ec & Fc & _).
  destruct (gi_form (only_satellites S) rs Hm Hr Hs) as (pls & Es & Fs & _).
  change (pk_lin (only_centrals S)) with (pk_lin S) in Ec. change (pk_lin (only_satellites S)) with (pk_lin S) in Es.
  rewrite E in Ec, Es. injection Ec as <-. injection Es as <-.
  rewrite F, Fc, Fs, Is_only_centrals, Ic_only_satellites, Ic_only_centrals, Is_only_satellites.
  change (t2i (only_centrals S)) with (t2i S). change (t2i (only_satellites S)) with (t2i S).
  change (Ic_term (only_centrals S)) with (Ic_term S). change (Ic_term (only_satellites S)) with (Ic_term S). ring.
Qed.

(** ** Central alignments on large scales: the non-linear alignment (NLA) amplitude *)
Lemma Ic_nla S b z k : positive_background S -> Ic_align S b z k = nla S b z.
Proof. intros H. rewrite (Ic_align_value S b z k H). reflexivity. Qed.

Lemma nla_mi S r pl b z k : positive_background S -> s_mode S = NoNl -> s_response S = false ->
  large_scale S z k -> pk_lin S = Ok pl -> power_spectrum_mi (only_centrals S) = Ok r ->
  pk_2h r b z k = - (pl z k * nla S b z * trunc2_ia (s_k2_ia S) (s_kvec S k)).
Proof.
  intros Hb Hm Hr Hu Hl H. destruct (mi_form (only_centrals S) r Hm Hr H) as (pl' & E & F & _).
  change (pk_lin (only_centrals S)) with (pk_lin S) in E. rewrite Hl in E. injection E as <-.
  rewrite F, Is_only_centrals, Ic_only_centrals, (Ic_nla S b z k Hb).
  change (Im_term (only_centrals S)) with (Im_term S). rewrite Im_unit by (try apply Hb; exact Hu).
  change (t2i (only_centrals S) k) with (trunc2_ia (s_k2_ia S) (s_kvec S k)). ring.
Qed.

Lemma nla_ii S r pl b z k : positive_background S -> s_mode S = NoNl -> s_response S = false ->
  pk_lin S = Ok pl -> power_spectrum_ii (only_centrals S) = Ok r ->
  pk_2h r b z k = pl z k * (nla S b z) ^ 2 * trunc2_ia (s_k2_ia S) (s_kvec S k).
Proof.
  intros Hb Hm Hr Hl H. destruct (ii_form (only_centrals S) r (or_introl Hm) Hr H) as (pl' & E & F & _).
  change (pk_lin (only_centrals S)) with (pk_lin S) in E. rewrite Hl in E. injection E as <-.
  rewrite F, Is_only_centrals, Ic_only_centrals, (Ic_nla S b z k Hb).
  change (t2i (only_centrals S) k) with (trunc2_ia (s_k2_ia S) (s_kvec S k)). ring.
Qed.

(** ** Zero beta_nl *)
Lemma I_NL_zero S W1 W2 i b z k : I_NL S W1 W2 zero_beta = Ok i -> i b z k = 0.
Proof.
  intros H. rewrite (I_NL_constant S W1 W2 zero_beta i 0 b z k (fun _ _ _ _ => eq_refl) H). ring.
Qed.

Lemma weights_I_NL S W1 W2 B w : trap_weights (s_nm S) (s_mass S) = Ok w -> exists i, I_NL S W1 W2 B = Ok i.
Proof. intros E. unfold I_NL. rewrite E. eexists. reflexivity. Qed.

Lemma respond_same S S' r r0 r' : s_response S = false -> s_response S' = false -> respond S r = Ok r' ->
  same_power r r0 -> exists r0', respond S' r0 = Ok r0' /\ same_power r' r0'.
Proof.
  intros E E' H Hs. apply (respond_off _ _ _ E) in H. subst r'. exists r0. split; [apply respond_none, E'|exact Hs].
Qed.

Ltac kill_inl := repeat match goal with
  | E : I_NL _ _ _ zero_beta = Ok ?i |- context [?i ?b ?z ?k] => rewrite (I_NL_zero _ _ _ _ b z k E)
  end.

Lemma lin_same S : pk_lin (bnl_zero S) = pk_lin (untruncated_2h S).
Proof. reflexivity. Qed.

Ltac at_S X S :=
  change (Im_term (X S)) with (Im_term S); change (Ic_term (X S)) with (Ic_term S);
  change (Is_term (X S)) with (Is_term S); change (Ic_align (X S)) with (Ic_align S);
  change (Is_align (X S)) with (Is_align S); change (one_halo (X S)) with (one_halo S);
  change (sat_align (X S)) with (sat_align S); change (cen_profile (X S)) with (cen_profile S);
  change (sat_profile (X S)) with (sat_profile S); change (profile_xm (X S)) with (profile_xm S);
  change (t1 (X S)) with (t1 S); change (t1i (X S)) with (t1i S).

Lemma zero_beta_mm S r : s_response S = false -> power_spectrum_mm (bnl_zero S) = Ok r ->
  exists r', power_spectrum_mm (untruncated_2h S) = Ok r' /\ same_power r r'.
Proof.
  intros Hr H. unfold power_spectrum_mm in *.
  change (s_response (bnl_zero S)) with (s_response S) in H.
  change (s_response (untruncated_2h S)) with (s_response S). rewrite Hr in *.
  unfold power_spectrum_mm_raw in *. cbv zeta in *. rewrite lin_same in H. inv_bind H. cbn [bind].
  change (s_mode (bnl_zero S)) with Bnl in H. change (s_mode (untruncated_2h S)) with NoNl. cbv iota in *.
  cbn [bind] in *. change (beta_nl (bnl_zero S)) with (Ok zero_beta) in H. cbn [bind] in H.
  inv_bind H. cbn [bind] in *. inv_ok H. eexists. split; [reflexivity|].
  intros b z k. cbn [pk_1h pk_2h pk_tot]. kill_inl.
  change (profile_mm (bnl_zero S)) with (profile_mm S). change (profile_mm (untruncated_2h S)) with (profile_mm S).
  change (t2 (untruncated_2h S) k) with 1. at_S bnl_zero S. at_S untruncated_2h S. repeat split; ring.
Qed.

Lemma zero_beta_five x S r : s_response S = false -> power_spectrum x (bnl_zero S) = Ok r ->
  exists r', power_spectrum x (untruncated_2h S) = Ok r' /\ same_power r r'.
Proof.
  intros Hr H. destruct x; cbn [power_spectrum] in *;
  unfold power_spectrum_gg, power_spectrum_gm, power_spectrum_mi, power_spectrum_ii, power_spectrum_gi in *;
  cbv zeta in *; change (s_mode (bnl_zero S)) with Bnl in H; change (s_mode (untruncated_2h S)) with NoNl;
  change (is_bnl NoNl) with false; change (is_bnl Bnl) with true in H;
  change (beta_nl (bnl_zero S)) with (Ok zero_beta) in H; rewrite ?lin_same in H; cbv iota in *; cbn [bind] in *;
  change (s_poisson (bnl_zero S)) with (s_poisson (untruncated_2h S)) in H;
  change (s_mass (bnl_zero S)) with (s_mass (untruncated_2h S)) in H;
  repeat (inv_bind H; cbn [bind] in * );
  (eapply (respond_same (bnl_zero S) (untruncated_2h S)); [exact Hr|exact Hr|exact H|]); clear H;
  intros b z k; cbn [pk_1h pk_2h pk_tot]; kill_inl;
  change (t2 (untruncated_2h S) k) with 1; change (t2i (untruncated_2h S) k) with 1;
  at_S bnl_zero S; at_S untruncated_2h S;
  repeat split; ring.
Qed.
