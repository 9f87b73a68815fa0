(** Lemmas about luminosity averages: the amplitudes of AlignmentAmplitudes. *)
From Coq Require Import Lia Lra Arith FunctionalExtensionality.
From Verif Require Import Base Quad QuadFacts Interp IaModel IaFacts2 IaFacts3 LumSpec LumFacts.
Open Scope R_scope.

Lemma belongs_iff nz z i g : (i < nz)%nat -> in_zbin nz z i g = true <-> belongs nz z i g.
Proof.
  intros Hi. unfold in_zbin, z_edge, belongs. destruct (Nat.ltb_spec i nz) as [A|A]; destruct (Nat.ltb_spec (i + 1) nz) as [B|B]; try lia.
  - destruct (Rle_dec _ _) as [C|C]; [|split; [discriminate|intros (H & _); lra]].
    destruct (Rlt_dec _ _) as [D|D]; (split; [|try reflexivity]).
    + intros _. split; [lra|]. split; [intros _; replace (S i) with (i + 1)%nat by lia; lra|lia].
    + discriminate.
    + intros (_ & H & _). specialize (H ltac:(lia)). replace (S i) with (i + 1)%nat in H by lia. lra.
  - destruct (Rle_dec _ _) as [C|C]; [|split; [discriminate|intros (H & _); lra]].
    destruct (Rlt_dec _ _) as [D|D]; (split; [|try reflexivity]).
    + intros _. split; [lra|]. split; [lia|intros _; lra].
    + discriminate.
    + intros (_ & _ & H). specialize (H ltac:(lia)). lra.
Qed.

Lemma luminosities_are nz z i gal l : (i < nz)%nat -> luminosities nz z i gal l -> lum_in_bin nz z gal i = l.
Proof.
  intros Hi. unfold lum_in_bin. induction 1 as [|g gal l B L IH|g gal l B L IH]; cbn; [reflexivity| |].
  - rewrite (proj2 (belongs_iff nz z i g Hi) B). cbn. now rewrite IH.
  - destruct (in_zbin nz z i g) eqn:E; [apply belongs_iff in E; [contradiction|exact Hi]|exact IH].
Qed.
Lemma luminosities_of nz z i gal : (i < nz)%nat -> luminosities nz z i gal (lum_in_bin nz z gal i).
Proof.
  intros Hi. unfold lum_in_bin. induction gal as [|g gal IH]; cbn; [constructor|]. destruct (in_zbin nz z i g) eqn:E; cbn.
  - apply lum_in; [now apply belongs_iff|exact IH].
  - apply lum_out; [|exact IH]. intros B. apply belongs_iff in B; [congruence|exact Hi].
Qed.
Lemma nl3 : (3 <= nlbins)%nat.
Proof. unfold nlbins. lia. Qed.
(** What both kinds of average come to. *)
Lemma mean_dependence nl x p l0 b : mean_l_l0_to_beta nl x p l0 b = simpson nl (fun j => p j * dependence l0 b None (x j)) x.
Proof. reflexivity. Qed.
Lemma broken_dependence nl x p g l0 b b2 : broken_powerlaw nl x p g l0 b b2 = g * simpson nl (fun j => p j * dependence l0 b (Some b2) (x j)) x.
Proof.
  unfold broken_powerlaw. rewrite <- simpson_scal. f_equal. apply functional_extensionality. intros j. unfold alignment_ampl, dependence. destruct (Rlt_dec l0 (x j)); ring.
Qed.
Lemma gi_luminosity a f : am_central a = "luminosity"%string -> alignment_gi a = Ok (Some f) -> exists p gal, am_lpivot_cen a = Some p /\ am_file_cen a = Some gal /\ (2 <= am_nz a)%nat /\
  forall i, f i = am_gamma2h a * simpson nlbins (fun j => snd (lum_table (am_nz a) (am_z a) nlbins gal) i j * dependence (pow10 p) (am_beta_cen a) (am_beta_two a) (fst (lum_table (am_nz a) (am_z a) nlbins gal) i j))
                                    (fst (lum_table (am_nz a) (am_z a) nlbins gal) i).
Proof.
  intros E. unfold alignment_gi. rewrite E. cbn [String.eqb Ascii.eqb Bool.eqb andb]. destruct (am_lpivot_cen a) as [p|]; cbn [pivot option_map]; [|discriminate].
  unfold luminosity_array. destruct (am_file_cen a) as [gal|]; [|discriminate]. unfold compute_luminosity_pdf.
  destruct (Nat.leb_spec (am_nz a) 1) as [L|L]; [discriminate|]. cbn [bind].
  destruct (lum_table (am_nz a) (am_z a) nlbins gal) as [lum pdf] eqn:T. cbn [fst snd].
  destruct (am_beta_two a) as [b2|]; intros H; injection H as <-; exists p, gal; rewrite T; cbn [fst snd]; (split; [reflexivity|]; split; [reflexivity|]; split; [lia|]; intros i).
  - now rewrite broken_dependence.
  - reflexivity.
Qed.
Lemma amp_luminosity a f : am_satellite a = "luminosity"%string -> gamma_1h_amp a = Ok (Some f) -> exists p gal, am_lpivot_sat a = Some p /\ am_file_sat a = Some gal /\ (2 <= am_nz a)%nat /\
  forall i, f i = am_gamma1h a * simpson nlbins (fun j => snd (lum_table (am_nz a) (am_z a) nlbins gal) i j * dependence (pow10 p) (am_beta_sat a) None (fst (lum_table (am_nz a) (am_z a) nlbins gal) i j))
                                    (fst (lum_table (am_nz a) (am_z a) nlbins gal) i).
Proof.
  intros E. unfold gamma_1h_amp. rewrite E. cbn [String.eqb Ascii.eqb Bool.eqb andb]. destruct (am_lpivot_sat a) as [p|]; cbn [pivot option_map]; [|discriminate].
  unfold luminosity_array. destruct (am_file_sat a) as [gal|]; [|discriminate]. unfold compute_luminosity_pdf.
  destruct (Nat.leb_spec (am_nz a) 1) as [L|L]; [discriminate|]. cbn [bind].
  destruct (lum_table (am_nz a) (am_z a) nlbins gal) as [lum pdf] eqn:T. cbn [fst snd].
  intros H; injection H as <-; exists p, gal; rewrite T; cbn [fst snd]. split; [reflexivity|]. split; [reflexivity|]. split; [lia|]. reflexivity.
Qed.
Lemma table_value nz z gal i l g : (i < nz)%nat -> luminosities nz z i gal l -> l <> [] -> exists lo hi bin, spans lo hi l /\ binned nlbins lo hi l bin /\
  simpson nlbins (fun j => snd (lum_table nz z nlbins gal) i j * g (fst (lum_table nz z nlbins gal) i j)) (fst (lum_table nz z nlbins gal) i) =
  average (fun t => simpson_weight nlbins (bin t) * g (middle nlbins lo hi (bin t))) l.
Proof.
  intros Hi L N. apply luminosities_are in L; [|exact Hi]. destruct l as [|x l]; [congruence|].
  exists (fst (hist_range x (x :: l))), (snd (hist_range x (x :: l))), (bin_of nlbins x l).
  split; [apply range_spans|]. split; [apply bin_binned; pose proof nl3; lia|]. apply table_average; [exact nl3|exact L].
Qed.
Lemma central_average a f i gal p l : am_central a = "luminosity"%string -> alignment_gi a = Ok (Some f) -> (i < am_nz a)%nat -> am_file_cen a = Some gal -> am_lpivot_cen a = Some p ->
  luminosities (am_nz a) (am_z a) i gal l -> l <> [] -> exists lo hi bin, spans lo hi l /\ binned nlbins lo hi l bin /\
  f i = am_gamma2h a * average (fun t => simpson_weight nlbins (bin t) * dependence (pow10 p) (am_beta_cen a) (am_beta_two a) (middle nlbins lo hi (bin t))) l.
Proof.
  intros E F Hi G P L N. destruct (gi_luminosity a f E F) as (p' & gal' & P' & G' & _ & V). rewrite P in P'. injection P' as <-. rewrite G in G'. injection G' as <-.
  destruct (table_value _ _ _ _ _ (dependence (pow10 p) (am_beta_cen a) (am_beta_two a)) Hi L N) as (lo & hi & bin & S & B & X).
  exists lo, hi, bin. split; [exact S|]. split; [exact B|]. now rewrite V, X.
Qed.
Lemma satellite_average a f i gal p l : am_satellite a = "luminosity"%string -> gamma_1h_amp a = Ok (Some f) -> (i < am_nz a)%nat -> am_file_sat a = Some gal -> am_lpivot_sat a = Some p ->
  luminosities (am_nz a) (am_z a) i gal l -> l <> [] -> exists lo hi bin, spans lo hi l /\ binned nlbins lo hi l bin /\
  f i = am_gamma1h a * average (fun t => simpson_weight nlbins (bin t) * dependence (pow10 p) (am_beta_sat a) None (middle nlbins lo hi (bin t))) l.
Proof.
  intros E F Hi G P L N. destruct (amp_luminosity a f E F) as (p' & gal' & P' & G' & _ & V). rewrite P in P'. injection P' as <-. rewrite G in G'. injection G' as <-.
  destruct (table_value _ _ _ _ _ (dependence (pow10 p) (am_beta_sat a) None) Hi L N) as (lo & hi & bin & S & B & X).
  exists lo, hi, bin. split; [exact S|]. split; [exact B|]. now rewrite V, X.
Qed.
(** The range and the bins are determined by the sample, and the middle of the bin is near the value. *)
Lemma spans_once lo hi lo' hi' l : l <> [] -> spans lo hi l -> spans lo' hi' l -> lo = lo' /\ hi = hi'.
Proof.
  intros N [(A1 & A2 & A3 & A4)|(x & A1 & A2 & A3)] [(B1 & B2 & B3 & B4)|(y & B1 & B2 & B3)].
  - pose proof (A4 _ B1). pose proof (A4 _ B2). pose proof (B4 _ A1). pose proof (B4 _ A2). split; lra.
  - pose proof (B1 _ A1). pose proof (B1 _ A2). lra.
  - pose proof (A1 _ B1). pose proof (A1 _ B2). lra.
  - destruct l as [|t l]; [congruence|]. pose proof (A1 t (or_introl eq_refl)). pose proof (B1 t (or_introl eq_refl)). subst. split; reflexivity.
Qed.
Lemma spans_lt lo hi l : l <> [] -> spans lo hi l -> lo < hi.
Proof. intros N [(_ & _ & A & _)|(x & _ & -> & ->)]; lra. Qed.
Lemma bin_once n lo hi l bin bin' t : (1 <= n)%nat -> lo < hi -> binned n lo hi l bin -> binned n lo hi l bin' -> In t l -> bin t = bin' t.
Proof.
  intros Hn Hlt B B' I. destruct (B t I) as (A1 & A2 & A3). destruct (B' t I) as (C1 & C2 & C3).
  assert (N : 0 < INR n) by (apply lt_0_INR; lia). set (w := (hi - lo) / INR n) in *. assert (W : 0 < w) by (apply Rdiv_lt_0_compat; lra).
  assert (HI : hi = lo + INR n * w) by (unfold w; field; lra).
  destruct (Nat.lt_trichotomy (bin t) (bin' t)) as [L|[L|L]]; [exfalso|exact L|exfalso].
  - assert (X : INR (bin t) + 1 <= INR (bin' t)) by (rewrite <- S_INR; apply le_INR; lia). assert (X' : (INR (bin t) + 1) * w <= INR (bin' t) * w) by (apply Rmult_le_compat_r; lra).
    destruct A3 as [A3|[A3 _]]; [lra|lia].
  - assert (X : INR (bin' t) + 1 <= INR (bin t)) by (rewrite <- S_INR; apply le_INR; lia). assert (X' : (INR (bin' t) + 1) * w <= INR (bin t) * w) by (apply Rmult_le_compat_r; lra).
    destruct C3 as [C3|[C3 _]]; [lra|lia].
Qed.
Lemma middle_near n lo hi l bin t : (1 <= n)%nat -> lo < hi -> binned n lo hi l bin -> In t l -> Rabs (t - middle n lo hi (bin t)) <= (hi - lo) / INR n / 2.
Proof.
  intros Hn Hlt B I. destruct (B t I) as (A1 & A2 & A3). assert (N : 0 < INR n) by (apply lt_0_INR; lia). unfold middle. set (w := (hi - lo) / INR n) in *.
  assert (W : 0 < w) by (apply Rdiv_lt_0_compat; lra).
  assert (HI : hi = lo + INR n * w) by (unfold w; field; lra).
  apply Rabs_le. destruct A3 as [A3|[A3 A4]]; [lra|]. assert (X : INR n = INR (bin t) + 1) by (pose proof (f_equal INR A3) as J; rewrite plus_INR in J; change (INR 1) with 1 in J; lra). assert (Y : t = lo + (INR (bin t) + 1) * w) by (rewrite <- X; lra). lra.
Qed.
Lemma middle_pos n lo hi l j : (1 <= n)%nat -> l <> [] -> spans lo hi l -> (forall t, In t l -> 1 / 2 <= t) -> 0 < middle n lo hi j.
Proof.
  intros Hn N S H. pose proof (spans_lt lo hi l N S) as W. assert (0 < INR n) by (apply lt_0_INR; lia). assert (0 < (hi - lo) / INR n) by (apply Rdiv_lt_0_compat; lra).
  assert (L : 0 <= lo). { destruct S as [(A & _)|(x & A & -> & _)]; [specialize (H _ A); lra|]. destruct l as [|t l]; [congruence|]. pose proof (A t (or_introl eq_refl)). pose proof (H t (or_introl eq_refl)). lra. }
  unfold middle. pose proof (pos_INR j). assert (0 < (INR j + 1 / 2) * ((hi - lo) / INR n)) by (apply Rmult_lt_0_compat; lra). lra.
Qed.
Lemma central_average' a f i gal p l : am_central a = "luminosity"%string -> alignment_gi a = Ok (Some f) -> (i < am_nz a)%nat -> am_file_cen a = Some gal -> am_lpivot_cen a = Some p ->
  luminosities (am_nz a) (am_z a) i gal l -> l <> [] -> (forall t, In t l -> 1 / 2 <= t) -> exists lo hi bin, spans lo hi l /\ binned nlbins lo hi l bin /\ (forall j, 0 < middle nlbins lo hi j) /\
  f i = am_gamma2h a * average (fun t => simpson_weight nlbins (bin t) * dependence (pow10 p) (am_beta_cen a) (am_beta_two a) (middle nlbins lo hi (bin t))) l.
Proof.
  intros E F Hi G P L N H. destruct (central_average a f i gal p l E F Hi G P L N) as (lo & hi & bin & S & B & X). exists lo, hi, bin. repeat split; try assumption; try apply (B _ H0).
  intros j. apply (middle_pos nlbins lo hi l j); [pose proof nl3; lia|assumption..].
Qed.
Lemma satellite_average' a f i gal p l : am_satellite a = "luminosity"%string -> gamma_1h_amp a = Ok (Some f) -> (i < am_nz a)%nat -> am_file_sat a = Some gal -> am_lpivot_sat a = Some p ->
  luminosities (am_nz a) (am_z a) i gal l -> l <> [] -> (forall t, In t l -> 1 / 2 <= t) -> exists lo hi bin, spans lo hi l /\ binned nlbins lo hi l bin /\ (forall j, 0 < middle nlbins lo hi j) /\
  f i = am_gamma1h a * average (fun t => simpson_weight nlbins (bin t) * dependence (pow10 p) (am_beta_sat a) None (middle nlbins lo hi (bin t))) l.
Proof.
  intros E F Hi G P L N H. destruct (satellite_average a f i gal p l E F Hi G P L N) as (lo & hi & bin & S & B & X). exists lo, hi, bin. repeat split; try assumption; try apply (B _ H0).
  intros j. apply (middle_pos nlbins lo hi l j); [pose proof nl3; lia|assumption..].
Qed.
Lemma dependence_ge0 l0 b b2 l : 0 <= dependence l0 b b2 l.
Proof.
  assert (F : forall x y, 0 <= fpow x y). { intros x y. unfold fpow. destruct (Rle_dec x 0); [destruct (Req_EM_T y 0); lra|]. unfold Rpower. apply Rlt_le, exp_pos. }
  unfold dependence. destruct b2; [destruct (Rlt_dec l0 l)|]; apply F.
Qed.
Lemma average_bounds n bin (g : R -> R) l : l <> [] -> (forall t, In t l -> 0 <= g t) ->
  1 / 3 * average g l <= average (fun t => simpson_weight n (bin t) * g t) l <= 4 / 3 * average g l.
Proof.
  intros N H. rewrite <- !average_scale. split; apply average_le; try exact N; intros t Ht; pose proof (weight_bounds n (bin t)); apply Rmult_le_compat_r; try lra; now apply H.
Qed.
Lemma central_empty a f i gal : am_central a = "luminosity"%string -> alignment_gi a = Ok (Some f) -> (i < am_nz a)%nat -> am_file_cen a = Some gal ->
  0 <= am_beta_cen a -> (forall b2, am_beta_two a = Some b2 -> 0 <= b2) -> luminosities (am_nz a) (am_z a) i gal [] -> f i = 0.
Proof.
  intros E F Hi G _ _ L. destruct (gi_luminosity a f E F) as (p & gal' & _ & G' & _ & V). rewrite G in G'. injection G' as <-. rewrite V.
  apply luminosities_are in L; [|exact Hi]. rewrite (simpson_ext nlbins _ (fun _ => 0) _ (fst (lum_table (am_nz a) (am_z a) nlbins gal) i)).
  - rewrite simpson_zero. ring.
  - pose proof nl3. lia.
  - intros j _. unfold lum_table. cbn [fst snd]. rewrite L. ring.
  - reflexivity.
Qed.
Lemma satellite_empty a f i gal : am_satellite a = "luminosity"%string -> gamma_1h_amp a = Ok (Some f) -> (i < am_nz a)%nat -> am_file_sat a = Some gal ->
  0 <= am_beta_sat a -> luminosities (am_nz a) (am_z a) i gal [] -> f i = 0.
Proof.
  intros E F Hi G _ L. destruct (amp_luminosity a f E F) as (p & gal' & _ & G' & _ & V). rewrite G in G'. injection G' as <-. rewrite V.
  apply luminosities_are in L; [|exact Hi]. rewrite (simpson_ext nlbins _ (fun _ => 0) _ (fst (lum_table (am_nz a) (am_z a) nlbins gal) i)).
  - rewrite simpson_zero. ring.
  - pose proof nl3. lia.
  - intros j _. unfold lum_table. cbn [fst snd]. rewrite L. ring.
  - reflexivity.
Qed.
