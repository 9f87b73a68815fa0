(** Lemmas about LhModel: setup, failures, and the entries in terms of the options. *)
From Coq Require Import Ascii ZArith Lia Lra FunctionalExtensionality.
From Verif Require Import Base Quad BaseFacts QuadFacts Interp InterpFacts AddFacts2 FftModel PipeModel PipeSpec PipeFacts HodModel OptModel ChainModel PredModel MiniModel AupModel AupSpec LiaModel LiaSpec LhModel LhSpec LhSpec2 LhFacts LhFacts2 LhFacts3 LhFacts4 LhFacts5 LhFacts6 LhFacts7 LhFacts8 LhFacts9.
Open Scope R_scope.

Lemma text_gets missing wrong o n d v : text o n d v -> get_string missing wrong o n (Some d) = Ok v.
Proof. unfold get_string. intros [E|[E ->]]; rewrite E; reflexivity. Qed.
Lemma switch_gets missing wrong o n d v : switch o n d v -> get_bool missing wrong o n (Some d) = Ok v.
Proof. unfold get_bool. intros [E|[E ->]]; rewrite E; reflexivity. Qed.
Lemma number_gets missing wrong o n d v : number o n d v -> get_double missing wrong o n (Some d) = Ok v.
Proof. unfold get_double. intros [[E|(k & E & ->)]|[E ->]]; rewrite E; reflexivity. Qed.
Lemma list_gets missing o n l : gives_list o n l -> get_array missing o n = Ok l.
Proof. unfold get_array. intros [E|(x & [E|(k & E & ->)] & ->)]; rewrite E; reflexivity. Qed.
Lemma unit_in u : existsb (String.eqb u) ["1/h"; "1/h^2"]%string = true <-> u = "1/h"%string \/ u = "1/h^2"%string.
Proof. cbn. destruct (String.eqb_spec u "1/h"), (String.eqb_spec u "1/h^2"); cbn; intuition congruence. Qed.
Lemma setup_iff missing wrong rows opens o s m bias t osec vals : settings_say rows o s -> options_say o m -> o "hod_section_name"%string = Some (OStr t) ->
  text o "observable_section_name" "stellar_mass_function" osec -> text o "values_name" "hod_parameters" vals -> switch o "do_galaxy_linear_bias" false bias ->
  ((exists c, lh_setup missing wrong rows opens o = Ok c) <-> (hs_unit s = "1/h"%string \/ hs_unit s = "1/h^2"%string) /\ (mo_model m = "Cacciato"%string \/ mo_save m = false) /\ grids_fit s).
Proof.
  intros (B & N & u & U & U') (M1 & M2 & M3 & M4) T O V Bi. unfold lh_setup. unfold get_string at 1. rewrite T. cbn [bind].
  rewrite (text_gets _ _ _ _ _ _ V). cbn [bind]. rewrite (text_gets _ _ _ _ _ _ O). cbn [bind]. rewrite (text_gets _ _ _ _ _ _ M1). cbn [bind].
  assert (N' : exists n, get_int missing wrong o "nobs" (Some 200%Z) = Ok n /\ Z.to_nat n = hs_nobs s).
  { unfold get_int. destruct N as [N|[N Q]]; rewrite N; cbn; eexists; (split; [reflexivity|]); [apply Nat2Z.id|now rewrite Q]. }
  destruct N' as (n & -> & Nn). cbn [bind]. rewrite (switch_gets _ _ _ _ _ _ Bi). cbn [bind]. rewrite (switch_gets _ _ _ _ _ _ M2). cbn [bind]. rewrite (text_gets _ _ _ _ _ _ M3). cbn [bind].
  rewrite (number_gets _ _ _ _ _ _ M4). cbn [bind]. rewrite (text_gets _ _ _ _ _ _ U). cbn [bind]. rewrite Nn, <- U'.
  set (cu := existsb (String.eqb (hs_unit s)) ["1/h"; "1/h^2"]%string). pose proof (unit_in (hs_unit s)) as Hu. fold cu in Hu.
  destruct cu; cbn [bind]; [|split; [intros (c & H); discriminate|intros (H & _); apply Hu in H; discriminate]]. assert (Hu' := proj1 Hu eq_refl).
  assert (Hm : (mo_model m = "Cacciato"%string \/ mo_save m = false) <-> (negb (String.eqb (mo_model m) "Cacciato") && mo_save m)%bool = false).
  { destruct (String.eqb_spec (mo_model m) "Cacciato"), (mo_save m); cbn; intuition congruence. }
  set (cm := (negb (String.eqb (mo_model m) "Cacciato") && mo_save m)%bool) in *. destruct cm; cbn [bind]; [split; [intros (c & H); discriminate|intros (_ & H & _); apply Hm in H; discriminate]|]. assert (Hm' := proj2 Hm eq_refl).
  clear Hu Hm. unfold grids_fit, nonempty, nbins, nz.
  destruct B as [(f & rs & F & R & Hf)|(F & L & Hf & L1 & L2 & L3 & L4 & L5)].
  - unfold lh_bins, OptModel.has_value. rewrite F. unfold get_string. rewrite F. cbn [bind]. rewrite R, Hf. cbn [bind]. destruct rs as [|[[z lo] hi] [|r rs]]; cbn [load_data bind].
    + split; [intros (c & H); discriminate|]. intros (_ & _ & (H & _) & _). cbn in H. lia.
    + split; [intros (c & H); discriminate|]. intros (_ & _ & (H & _) & _). cbn in H. lia.
    + destruct (Rlt_dec hi lo) as [Q|Q]; cbn [bind].
      * split; [intros (c & H); discriminate|]. intros (_ & _ & (_ & H) & _). specialize (H z lo hi eq_refl). lra.
      * cbn [List.length]. destruct (Nat.eqb_spec (1 * S (S (List.length rs)) * hs_nobs s) 0) as [Z|Z]; cbn [bind].
        -- split; [intros (c & H); discriminate|]. intros (_ & _ & _ & _ & _ & H). exfalso. destruct (hs_nobs s); [lia|discriminate].
        -- split; [|intros _; eexists; reflexivity]. intros _. split; [exact Hu'|]. split; [exact Hm'|]. split; [|destruct (hs_nobs s); [lia|lia]]. split; [lia|]. cbn. intros z' lo' hi' E. injection E as <- <- <-. lra.
  - unfold lh_bins, OptModel.has_value. rewrite F, Hf.
    assert (D : ((match o "mass_lim"%string with Some _ => true | None => false end) && (match o "mass_lim_low"%string with Some _ => true | None => false end))%bool = false) by (destruct L as [-> | ->]; [reflexivity|apply Bool.andb_false_r]).
    rewrite D. rewrite (list_gets _ _ _ _ L1), (list_gets _ _ _ _ L2), (list_gets _ _ _ _ L3), (list_gets _ _ _ _ L4). cbn [bind]. unfold get_count. rewrite L5.
    destruct (Z.ltb_spec (Z.of_nat (hs_nz s)) 0) as [Q|_]; [lia|]. rewrite Nat2Z.id. cbn [bind].
    destruct (Nat.eqb_spec (List.length (hs_obs_max s)) (List.length (hs_obs_min s))) as [E1|E1]; cbn [andb bind]; [|split; [intros (c & H); discriminate|tauto]].
    destruct (Nat.eqb_spec (List.length (hs_zmin s)) (List.length (hs_obs_min s))) as [E2|E2]; cbn [andb bind]; [|split; [intros (c & H); discriminate|tauto]].
    destruct (Nat.eqb_spec (List.length (hs_zmax s)) (List.length (hs_obs_min s))) as [E3|E3]; cbn [andb bind]; [|split; [intros (c & H); discriminate|tauto]].
    destruct (Nat.eqb_spec (List.length (hs_obs_min s) * hs_nz s * hs_nobs s) 0) as [Z|Z]; cbn [bind].
    + split; [intros (c & H); discriminate|]. intros (_ & _ & _ & H1 & H2 & H3). exfalso. apply Nat.eq_mul_0 in Z. destruct Z as [Z|Z]; [apply Nat.eq_mul_0 in Z|]; lia.
    + split; [|intros _; eexists; reflexivity]. intros _. repeat split; try assumption; try tauto; destruct (List.length (hs_obs_min s)), (hs_nz s), (hs_nobs s); lia.
Qed.
(** The branch with mass limits never ends well. *)
Lemma limits_fail missing wrong rows opens o c : o "observables_file"%string = None -> o "mass_lim"%string <> None -> o "mass_lim_low"%string <> None -> lh_setup missing wrong rows opens o <> Ok c.
Proof.
  intros F M1 M2 H. unfold lh_setup in H. do 10 (apply bind_ok in H; destruct H as (? & _ & H)). apply bind_ok in H; destruct H as (? & _ & H). apply bind_ok in H; destruct H as (? & _ & H).
  apply bind_ok in H. destruct H as (t & L & _). unfold lh_bins, OptModel.has_value in L. rewrite F in L. destruct (o "mass_lim"%string); [|now elim M1]. destruct (o "mass_lim_low"%string); [|now elim M2]. cbn [andb] in L.
  do 6 (apply bind_ok in L; destruct L as (? & _ & L)). discriminate.
Qed.
Lemma options_config missing wrong rows opens o m c' : options_say o m -> lh_setup missing wrong rows opens o = Ok c' -> h_model c' = mo_model m /\ h_save c' = mo_save m /\ h_mode c' = mo_mode m /\ h_zmed c' = mo_zmed m.
Proof.
  intros (M1 & M2 & M3 & M4) H. apply setup_names in H. destruct H as (_ & _ & _ & H1 & _ & H2 & H3 & H4 & _). split; [now apply H1|]. split; [now apply H2|]. split; [now apply H3|]. now apply H4.
Qed.
(** Unknown models. *)
Lemma unknown over missing wrong rows opens o m c' b : options_say o m -> lh_setup missing wrong rows opens o = Ok c' -> ~ In (mo_model m) ["Zheng"; "Zhai"; "Cacciato"]%string -> lh_execute over c' b = (b, Err "KeyError").
Proof.
  intros M H N. apply (options_config _ _ _ _ _ _ _ M) in H. destruct H as (H & _). unfold lh_execute, legacy_parameters. rewrite H.
  destruct (String.eqb_spec (mo_model m) "Zheng") as [E|_]; [elim N; rewrite E; now left|]. destruct (String.eqb_spec (mo_model m) "Zhai") as [E|_]; [elim N; rewrite E; right; now left|].
  destruct (String.eqb_spec (mo_model m) "Cacciato") as [E|_]; [elim N; rewrite E; right; right; now left|]. reflexivity.
Qed.
(** Frame and second run with the sections of the options. *)
Lemma frame' over missing wrong rows opens o t osec c' b b' r s n : lh_setup missing wrong rows opens o = Ok c' -> o "hod_section_name"%string = Some (OStr t) -> section_is o "observable_section_name" "stellar_mass_function" osec ->
  lh_execute over c' b = (b', r) -> s <> lower t -> s <> osec -> b' s n = b s n.
Proof.
  intros H T (u & U & ->) R N1 N2. apply setup_names in H. destruct H as (H1 & H2 & _). apply (frame over c' b b' r s n R); [rewrite (H1 t T)|rewrite (H2 u U)]; assumption.
Qed.
Lemma again' over missing wrong rows opens o sec osec vals c' b b' : lh_setup missing wrong rows opens o = Ok c' -> (exists t, o "hod_section_name"%string = Some (OStr t) /\ sec = lower t) ->
  section_is o "observable_section_name" "stellar_mass_function" osec -> section_is o "values_name" "hod_parameters" vals -> apart sec osec vals ->
  lh_execute over c' b = (b', Ok tt) -> lh_execute over c' b' = (b', Err "BlockNameAlreadyExists").
Proof.
  intros H (t & T & ->) (u & U & ->) (v & V & ->) A R. apply setup_names in H. destruct H as (H1 & H2 & H3 & _). rewrite <- (H1 t T), <- (H2 u U), <- (H3 v V) in A. now apply (again over c' A b).
Qed.
(** A parameter that is not there. *)
Lemma parameter_missing over missing wrong rows opens o m sec osec vals c' s b : settings_say rows o s -> options_say o m -> lh_setup missing wrong rows opens o = Ok c' ->
  (exists t, o "hod_section_name"%string = Some (OStr t) /\ sec = lower t) -> section_is o "observable_section_name" "stellar_mass_function" osec -> section_is o "values_name" "hod_parameters" vals -> apart sec osec vals ->
  (forall n, b sec n = None) -> In (mo_model m) ["Zheng"; "Zhai"; "Cacciato"]%string ->
  (exists mass z dn, b "hmf"%string "m_h"%string = Some (BArr mass) /\ b "hmf"%string "z"%string = Some (BArr z) /\ b "hmf"%string "dndlnmh"%string = Some (BTab dn)) ->
  (exists x, may_read b vals "A_cen" x) -> (exists x, may_read b vals "A_sat" x) ->
  let name n := if String.eqb (mo_model m) "Cacciato" then n else PipeSpec.bin_name n (nbins s) 0 in
  (forall n, In n (parameters_of_model (mo_model m)) -> (exists x, reads b vals (name n) x) \/ b vals (name n) = None) ->
  (exists n, In n (parameters_of_model (mo_model m)) /\ b vals (name n) = None) ->
  exists b', lh_execute over c' b = (b', Err "Exception") /\ only_counts b b' sec (Z.of_nat (nbins s)) (if OptModel.has_value o "observables_file" then 1 else 0).
Proof.
  intros Sy Op Set_ (t & T & ->) (u & U & ->) (v & V & ->) A F Im (mass & z & dn & E1 & E2 & E3) (xa & Xa) (xs & Xs) name P Q.
  pose proof (setup_names _ _ _ _ _ _ Set_) as Nm. destruct Nm as (H1 & H2 & H3 & _ & _ & _ & _ & _ & _ & _ & Hz). specialize (H1 t T). specialize (H2 u U). specialize (H3 v V).
  destruct (setup_described _ _ _ _ _ _ _ Sy Set_) as (S1 & _ & _ & _ & _ & _ & S7 & _). destruct (options_config _ _ _ _ _ _ _ Op Set_) as (Hm & _).
  assert (M : legacy_parameters (h_model c') = Some (parameters_of_model (mo_model m))). { rewrite Hm. destruct Im as [<-|[<-|[<-|[]]]]; reflexivity. }
  assert (PN : forall n, param_name c' 0 n = name n). { intros n. unfold param_name, name, lh_suffix. now rewrite suffix_name, Hm, S1. }
  set (b1 := put_entries (flat_map entries (head_puts c')) b).
  assert (Hd : do_puts over (head_puts c') b = (b1, Ok tt)).
  { cbn [head_puts do_puts do_put]. unfold put_new at 1. rewrite H1, F. unfold then_. cbn [snd fst]. unfold put_new. rewrite bput_ne by (intros [_ E]; discriminate). rewrite F. unfold b1, head_puts. rewrite H1. reflexivity. }
  assert (Oc : only_counts b b1 (lower t) (Z.of_nat (nbins s)) (if OptModel.has_value o "observables_file" then 1 else 0)).
  { unfold b1, head_puts. cbn [flat_map entries app put_entries fold_left put_entry]. unfold put_entry. cbn [fst snd]. rewrite H1, S1, Hz.
    split; [rewrite bput_ne by (intros [_ E]; discriminate); apply bput_eq|]. split; [apply bput_eq|]. intros s' k K. rewrite !bput_ne; [reflexivity|intros [-> ->]; apply K; now split; [|left]|intros [-> ->]; apply K; now split; [|right]]. }
  exists b1. split; [|exact Oc]. destruct Oc as (_ & _ & Oc). destruct A as (_ & A).
  assert (R1 : forall s' n, s' <> lower t -> b1 s' n = b s' n) by (intros s' n K; apply Oc; intros [K' _]; contradiction).
  assert (Av : lower v <> lower t) by (apply A; now left). assert (Ah : "hmf"%string <> lower t) by (apply A; right; now left).
  unfold lh_execute. rewrite M. change [Plain (h_section c') "nbins" (BInt (Z.of_nat (h_nbins c'))); Plain (h_section c') "observable_z" (BInt (if h_obsz c' then 1 else 0))] with (head_puts c'). rewrite Hd. unfold then_ at 1. cbn [snd fst].
  assert (As : forall n x, may_read b (lower v) n x -> lh_assembly c' b1 n = Ok x).
  { intros n x X. unfold lh_assembly, LiaModel.has_value. rewrite H3, R1 by exact Av. destruct x as [x|]; cbn in X.
    - unfold block_num, reads in *. destruct X as [X|(k & X & ->)]; rewrite R1 by exact Av; rewrite X; reflexivity.
    - now rewrite X. }
  unfold lh_input, table_at, array. rewrite !R1 by exact Ah. rewrite E1, E2, E3. cbn [bind]. rewrite (As _ _ Xa), (As _ _ Xs). cbn [bind].
  rewrite seq_first by (rewrite S1; exact S7). cbn [map in_turn]. unfold then_ at 1. unfold then_ at 1. unfold lh_bin_execute, then_, read_write, lh_occupation. rewrite (params_missing c' 0 b1).
  - reflexivity.
  - intros n I. rewrite PN, H3, R1 by exact Av. destruct (P n I) as [(x & X)|X]; [left|now right]. exists x. unfold reads in *. now rewrite R1 by exact Av.
  - destruct Q as (n & I & X). exists n. split; [exact I|]. now rewrite PN, H3, R1 by exact Av.
Qed.
(** The class interpolates what the module writes. *)
Lemma interp1d_ext2 fl n x x' f g q : (2 <= n)%nat -> (forall i, (i < n)%nat -> x i = x' i) -> (forall i, (i < n)%nat -> f i = g i) -> interp1d fl n x f q = interp1d fl n x' g q.
Proof.
  intros N X F. rewrite (interp1d_ext fl n x f g q N F). destruct fl; cbn [interp1d]; rewrite ?(X 0%nat), ?(X (n - 1)%nat) by lia; rewrite (interp_ext_x n x x' g q N X); reflexivity.
Qed.
Lemma interface c k i vz v f (d : A2) : (2 <= nz (c_set c))%nat -> holds_array vz (nz (c_set c)) (hod_z (c_set c) k) -> holds_array v (nz (c_set c)) (d k) ->
  interpolated f vz v (c_zvec c i) (z_interpolate c f d k i).
Proof.
  intros N (z & -> & Z1 & Z2) (a & -> & A1 & A2). exists z, a. split; [reflexivity|]. split; [reflexivity|]. split; [now rewrite Z1, A1|]. unfold z_interpolate. rewrite Z1.
  apply interp1d_ext2; [exact N| |]; intros j J; symmetry; [now apply Z2|now apply A2].
Qed.
Lemma interface_column c k i vz v f (d : A3) m : (2 <= nz (c_set c))%nat -> (m < c_nm c)%nat -> holds_array vz (nz (c_set c)) (hod_z (c_set c) k) -> holds_table v (nz (c_set c)) (c_nm c) (d k) ->
  interpolated_column f vz v m (c_zvec c i) (z_interpolate c f (fun b j => d b j m) k i).
Proof.
  intros N M (z & -> & Z1 & Z2) (t & -> & T1 & T2). exists z, t. split; [reflexivity|]. split; [reflexivity|]. split; [now rewrite Z1, T1|]. unfold z_interpolate. rewrite Z1.
  apply interp1d_ext2; [exact N| |]; intros j J; symmetry; [now apply Z2|]. now apply (proj2 (T2 j J)).
Qed.
