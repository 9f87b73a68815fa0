(** Lemmas about LhModel: success and failure in terms of the class HOD, and the entries not of a bin. *)
From Coq Require Import Ascii ZArith Lia Lra FunctionalExtensionality.
From Verif Require Import Base Quad Interp InterpFacts FftModel PipeModel PipeSpec PipeFacts HodModel OptModel ChainModel PredModel MiniModel AupModel AupSpec LiaModel LiaSpec LhModel LhSpec LhFacts LhFacts2 LhFacts3 LhFacts4 LhFacts5 LhFacts6 LhFacts7.
Open Scope R_scope.

Lemma names_of m l : legacy_parameters m = Some l -> l = parameters_of_model m.
Proof.
  unfold legacy_parameters, parameters_of_model. destruct (String.eqb m "Zheng"); [|destruct (String.eqb m "Zhai"); [|destruct (String.eqb m "Cacciato"); [|discriminate]]]; intros H; now injection H.
Qed.
Lemma seq_first n : (0 < n)%nat -> seq 0 n = 0%nat :: seq 1 (n - 1).
Proof. destruct n; [lia|]. intros _. cbn. now rewrite Nat.sub_0_r. Qed.
Section Ends.
  Variables (over : bool) (missing wrong : string) (rows : string -> res (list (R * R * R))) (opens : string -> res unit).
  Variables (o : options) (b : dblock) (sec osec vals : string) (bias : bool) (c : hod_ctx) (md : hod_model) (c' : hconfig).
  Hypothesis Says : hod_says rows o b sec osec vals bias c md.
  Hypothesis Apart : apart sec osec vals.
  Hypothesis Set_ : lh_setup missing wrong rows opens o = Ok c'.
  Let S_ := is_set _ _ _ _ _ _ _ _ _ _ _ _ _ Says Set_.
  Let A_ := apart_here _ _ _ _ _ _ _ _ _ _ _ _ _ Says Apart Set_.
  Let values_apart : h_values c' <> h_section c' /\ h_values c' <> h_obssec c'. Proof. apply (ap c' A_). now left. Qed.
  Let hmf_apart : "hmf"%string <> h_section c' /\ "hmf"%string <> h_obssec c'. Proof. apply (ap c' A_). cbn. tauto. Qed.
  Let bias_apart : "halobias"%string <> h_section c' /\ "halobias"%string <> h_obssec c'. Proof. apply (ap c' A_). cbn. tauto. Qed.
  Let h_apart : "cosmological_parameters"%string <> h_section c' /\ "cosmological_parameters"%string <> h_obssec c'. Proof. apply (ap c' A_). cbn. tauto. Qed.
  Lemma params_there names k : legacy_parameters (h_model c') = Some names -> (k < nbins (c_set c))%nat -> exists kw, lh_params c' k names b = Ok kw.
  Proof.
    intros N L. apply params_run. intros n I. pose proof (is_model _ _ _ _ _ _ _ _ _ _ _ _ _ Says Set_) as M. unfold param_name, lh_suffix. rewrite suffix_name, (is_vals _ _ _ _ _ _ _ _ _ _ _ _ _ Says Set_), (proj1 S_).
    destruct md as [p|p|p|p|p]; cbn [model_says] in M; try contradiction; destruct M as (E & M); rewrite E in *; cbn in N; injection N as <-; cbn [String.eqb Ascii.eqb Bool.eqb].
    - repeat (destruct I as [<-|I]; [eexists; apply M|]). contradiction.
    - destruct M as (M1 & M2 & M3 & M4 & M5 & _). repeat (destruct I as [<-|I]; [eexists; first [apply M1|apply M2|apply M3|apply M4|apply M5]; exact L|]). contradiction.
    - destruct M as (M1 & M2 & M3 & M4 & M5 & _). repeat (destruct I as [<-|I]; [eexists; first [apply M1|apply M2|apply M3|apply M4|apply M5]; exact L|]). contradiction.
  Qed.
  Lemma reads_iff names mass z dn k : let i := {| i_dn := dn; i_mass := mass; i_z := z; i_Acen := fst (assembly_of md); i_Asat := snd (assembly_of md) |} in
    legacy_parameters (h_model c') = Some names -> c_nm c = List.length mass -> c_mass c = at_ mass -> (k < nbins (c_set c))%nat -> halos_say b bias c ->
    b "hmf"%string "m_h"%string = Some (BArr mass) -> b "hmf"%string "z"%string = Some (BArr z) -> b "hmf"%string "dndlnmh"%string = Some (BTab dn) ->
    (bin_reads c' b i names k <-> halos_fit b bias /\ occupied c md k).
  Proof.
    intros i N Q1 Q2 L H E1 E2 E3. destruct (params_there names k N L) as (kw & P).
    pose proof (same_cen _ _ _ _ _ _ _ _ _ _ _ _ _ Says Set_ names k kw mass z dn N L P Q2) as Sc. pose proof (same_sat _ _ _ _ _ _ _ _ _ _ _ _ _ Says Set_ names k kw mass z dn N L P Q2) as Ss. fold i in Sc, Ss.
    pose proof (is_bias _ _ _ _ _ _ _ _ _ _ _ _ _ Says Set_) as Bi.
    destruct H as ((mass' & z' & dn' & F1 & F2 & F3 & _ & _ & _ & _ & _ & F4) & _). assert (mass' = mass) by congruence. assert (z' = z) by congruence. assert (dn' = dn) by congruence. subst mass' z' dn'.
    unfold bin_reads, lh_occupation, lh_biases. rewrite P. cbn [bind]. cbv zeta. change (lo_nz (lh_bin c' i kw k)) with (h_nz c'). change (lo_nm (lh_bin c' i kw k)) with (List.length mass). change (i_mass i) with mass. change (i_z i) with z. change (i_dn i) with dn.
    rewrite Sc, Ss, Bi, (proj1 (proj2 S_)), <- Q1. split.
    - intros (kw' & l1 & l2 & K & O & B). apply bind_ok in O. destruct O as (u & T & O). destruct (table_fits z (c_nm c) dn) eqn:T1; [|discriminate]. apply table_fits_spec in T1. destruct T1 as (T1 & T2 & T3).
      apply bind_ok in O. destruct O as (u2 & T' & O). destruct (some_negative (nz (c_set c)) (c_nm c) (compute_hod_sat c md k)) eqn:N1; [discriminate|]. destruct (some_negative (nz (c_set c)) (c_nm c) (compute_hod_cen c md k)) eqn:N2; [discriminate|].
      split.
      + intros m1 z1 d1 hb G1 G2 G3. assert (m1 = mass) by congruence. assert (z1 = z) by congruence. assert (d1 = dn) by congruence. subst. split; [exact T1|]. split; [exact T2|]. split; [now rewrite <- Q1|].
        intros Bt G4. destruct (F4 Bt) as (hb' & F5 & F6 & _). rewrite Bt in B. unfold array, table_at in B. rewrite F5, G4 in B. cbn [bind] in B. apply bind_ok in B. destruct B as (u3 & B & _).
        destruct (table_fits z (c_nm c) hb) eqn:T4; [|discriminate]. apply table_fits_spec in T4. destruct T4 as (_ & T4 & T5). split; [exact T4|now rewrite <- Q1].
      + intros j m J M. split; [exact (proj1 (some_negative_spec _ _ _) N2 j m J M)|exact (proj1 (some_negative_spec _ _ _) N1 j m J M)].
    - intros (Fit & Occ). exists kw.
      assert (T1 : table_fits z (c_nm c) dn = true). { destruct (Fit mass z dn [] E1 E2 E3) as (A1 & A2 & A3 & _). apply table_fits_spec. rewrite Q1. auto. }
      rewrite T1. cbn [bind]. rewrite (proj2 (some_negative_spec _ _ (compute_hod_sat c md k)) (fun j m J M => proj2 (Occ j m J M))), (proj2 (some_negative_spec _ _ (compute_hod_cen c md k)) (fun j m J M => proj1 (Occ j m J M))). cbn [orb bind].
      destruct (factor_runs _ _ _ _ _ _ _ _ _ _ _ _ _ Says Set_) as (h & Hf). rewrite Hf.
      assert (B : exists l2, (if bias then z0 <- array b "halobias" "z";; p <- table_at b "halobias" "b_hb";; u <- (if table_fits z0 (c_nm c) p then Ok tt else Err "ValueError");;
          (let x := lh_bin c' i kw k in let hb := fun j => at_z z0 p (h_z c' k j) in
           Ok [bin_arr c' k "galaxy_bias_centrals" (fun j => lh_bias x hb (lh_cen x) j / lh_density x (lh_tot x) j);
               bin_arr c' k "galaxy_bias_satellites" (fun j => lh_bias x hb (lh_sat x) j / lh_density x (lh_tot x) j);
               bin_arr c' k "b" (fun j => lh_bias x hb (lh_tot x) j / lh_density x (lh_tot x) j)]) else Ok []) = Ok l2).
      { destruct bias; [|now eexists]. destruct (F4 eq_refl) as (hb & F5 & F6 & _). unfold array, table_at. rewrite F5, F6. cbn [bind].
        replace (table_fits z (c_nm c) hb) with true; [cbn [bind]; now eexists|]. symmetry. apply table_fits_spec. destruct (Fit mass z dn hb E1 E2 E3) as (A1 & A2 & A3 & A4). destruct (A4 eq_refl F6) as (A5 & A6). rewrite Q1. auto. }
      destruct B as (l2 & B). cbv zeta in B. destruct (String.eqb (h_model c') "Cacciato"); cbn [bind]; eexists; exists l2; (split; [reflexivity|]); (split; [reflexivity|]); exact B.
  Qed.
  Lemma ends : (forall n, b sec n = None) -> (forall n, b osec n = None) ->
    ((exists b', lh_execute over c' b = (b', Ok tt)) <-> halos_fit b bias /\ forall k, (k < nbins (c_set c))%nat -> occupied c md k).
  Proof.
    intros F1 F2. pose proof Says as Sy. destruct Sy as (_ & _ & _ & _ & _ & _ & H). pose proof H as H'. destruct H' as ((mass & z & dn & E1 & E2 & E3 & Q1 & Q2 & _) & _).
    destruct (is_halos _ _ _ _ _ _ _ _ _ _ _ _ _ Says Set_) as (mass' & z' & dn' & I & _). pose proof I as I'. unfold lh_input, table_at, array in I'. rewrite E1, E2, E3 in I'. cbn [bind] in I'.
    apply bind_ok in I'. destruct I' as (a1 & _ & I'). apply bind_ok in I'. destruct I' as (a2 & _ & I'). injection I' as -> -> -> _ _.
    destruct (has_names _ _ _ _ _ _ _ _ _ _ _ _ _ Says Set_) as (names & N). split.
    - intros (b' & R). destruct (run_ok over c' values_apart h_apart bias_apart hmf_apart b b' R) as (names' & i & kw & ext & N' & I' & Rd & _). rewrite I in I'. injection I' as <-. assert (names' = names) by congruence. subst names'.
      assert (K : forall k, (k < nbins (c_set c))%nat -> halos_fit b bias /\ occupied c md k).
      { intros k L. apply (reads_iff names mass' z' dn' k N Q1 Q2 L H E1 E2 E3). apply Rd. now rewrite (proj1 S_). }
      split; [|intros k L; now apply K]. destruct S_ as (_ & _ & _ & _ & _ & _ & S7 & _). exact (proj1 (K 0%nat S7)).
    - intros (Fit & Occ).
      assert (Rd : forall nb, (nb < h_nbins c')%nat -> bin_reads c' b {| i_dn := dn'; i_mass := mass'; i_z := z'; i_Acen := fst (assembly_of md); i_Asat := snd (assembly_of md) |} names nb).
      { intros nb L. rewrite (proj1 S_) in L. apply (reads_iff names mass' z' dn' nb N Q1 Q2 L H E1 E2 E3). auto. }
      assert (Lk : (h_nbins c' - 1 < nbins (c_set c))%nat) by (destruct S_ as (S1 & _ & _ & _ & _ & _ & S7 & _); lia).
      destruct (params_there names _ N Lk) as (kw & P). destruct (factor_runs _ _ _ _ _ _ _ _ _ _ _ _ _ Says Set_) as (h & Hf).
      assert (X : exists ext, lh_extended c' {| i_dn := dn'; i_mass := mass'; i_z := z'; i_Acen := fst (assembly_of md); i_Asat := snd (assembly_of md) |} kw b = Ok ext).
      { unfold lh_extended. destruct (String.eqb (h_model c') "Cacciato"); [|now eexists]. cbv zeta. rewrite Hf. cbn [bind]. now eexists. }
      destruct X as (ext & X). apply (runs over c' A_ b _ names kw ext N I Rd P X).
      + intros n. rewrite (is_sec _ _ _ _ _ _ _ _ _ _ _ _ _ Says Set_). apply F1.
      + intros n. rewrite (is_osec _ _ _ _ _ _ _ _ _ _ _ _ _ Says Set_). apply F2.
  Qed.
  (** The head of a run. *)
  Lemma head_runs : (forall n, b sec n = None) -> do_puts over (head_puts c') b = (put_entries (flat_map entries (head_puts c')) b, Ok tt) /\
    only_counts b (put_entries (flat_map entries (head_puts c')) b) sec (Z.of_nat (nbins (c_set c))) (if OptModel.has_value o "observables_file" then 1 else 0).
  Proof.
    intros F. pose proof (is_sec _ _ _ _ _ _ _ _ _ _ _ _ _ Says Set_) as Se. split.
    - cbn [head_puts do_puts do_put]. unfold put_new at 1. rewrite Se, F. unfold then_. cbn [snd fst]. unfold put_new. rewrite bput_ne by (intros [_ E]; discriminate). rewrite F. unfold head_puts. rewrite Se. reflexivity.
    - unfold head_puts. cbn [flat_map entries app put_entries fold_left put_entry]. unfold put_entry. cbn [fst snd]. rewrite Se, (proj1 S_).
      replace (h_obsz c') with (OptModel.has_value o "observables_file") by (symmetry; apply (setup_names _ _ _ _ _ _ Set_)).
      split; [rewrite bput_ne by (intros [_ E]; discriminate); apply bput_eq|]. split; [apply bput_eq|]. intros s n K. rewrite !bput_ne; [reflexivity| |]; intros [-> ->]; apply K; auto.
  Qed.
  (** A negative occupation in the first bin. *)
  Lemma negative : (forall n, b sec n = None) -> halos_fit b bias -> ~ occupied c md 0 -> exists b', lh_execute over c' b = (b', Err "ValueError") /\
    only_counts b b' sec (Z.of_nat (nbins (c_set c))) (if OptModel.has_value o "observables_file" then 1 else 0).
  Proof.
    intros F Fit Occ. destruct (head_runs F) as [Hd Oc]. eexists. split; [|exact Oc]. destruct (has_names _ _ _ _ _ _ _ _ _ _ _ _ _ Says Set_) as (names & N).
    destruct (is_halos _ _ _ _ _ _ _ _ _ _ _ _ _ Says Set_) as (mass & z & dn & I & Q1 & Q2 & _). pose proof Says as Sy. destruct Sy as (_ & _ & _ & _ & _ & _ & ((mass' & z' & dn' & E1 & E2 & E3 & _) & _)).
    pose proof I as I'. unfold lh_input, table_at, array in I'. rewrite E1, E2, E3 in I'. cbn [bind] in I'. apply bind_ok in I'. destruct I' as (a1 & _ & I'). apply bind_ok in I'. destruct I' as (a2 & _ & I'). injection I' as -> -> -> _ _.
    pose proof (ours_agree c' _ b (head_ours c')) as Ag. set (b1 := put_entries _ b) in *. destruct S_ as (S1 & S2 & _ & _ & _ & _ & S7 & _).
    unfold lh_execute. rewrite N. fold (head_puts c'). rewrite Hd. unfold then_ at 1. cbn [snd fst]. rewrite (input_agree c' values_apart hmf_apart _ _ Ag), I.
    rewrite (seq_first (h_nbins c')) by lia. cbn [map in_turn]. unfold lh_bin_execute at 1. unfold read_write at 1. rewrite (occupation_agree c' values_apart h_apart _ _ _ _ _ Ag).
    destruct (params_there names 0 N S7) as (kw & P). unfold lh_occupation at 1. rewrite P. cbn [bind]. cbv zeta. cbn [i_z i_mass i_dn].
    replace (table_fits z (List.length mass) dn) with true by (symmetry; apply table_fits_spec; destruct (Fit mass z dn [] E1 E2 E3) as (A1 & A2 & A3 & _); auto). cbn [bind].
    set (i := {| i_dn := dn |}) in *. change (lo_nz (lh_bin c' i kw 0)) with (h_nz c'). change (lo_nm (lh_bin c' i kw 0)) with (List.length mass). rewrite S2, <- Q1.
    pose proof (same_cen _ _ _ _ _ _ _ _ _ _ _ _ _ Says Set_ names 0 kw mass z dn N S7 P Q2) as Sc. pose proof (same_sat _ _ _ _ _ _ _ _ _ _ _ _ _ Says Set_ names 0 kw mass z dn N S7 P Q2) as Ss. fold i in Sc, Ss. rewrite Sc, Ss.
    assert (G : (some_negative (nz (c_set c)) (c_nm c) (compute_hod_sat c md 0) || some_negative (nz (c_set c)) (c_nm c) (compute_hod_cen c md 0))%bool = true).
    { destruct (some_negative _ _ (compute_hod_sat c md 0)) eqn:G1; [reflexivity|]. destruct (some_negative _ _ (compute_hod_cen c md 0)) eqn:G2; [reflexivity|]. exfalso. apply Occ. intros j m J M.
      split; [exact (proj1 (some_negative_spec _ _ _) G2 j m J M)|exact (proj1 (some_negative_spec _ _ _) G1 j m J M)]. }
    rewrite G. cbn [bind]. reflexivity.
  Qed.
End Ends.
