(** Proofs about the legacy HOD module without a loop. *)
From Coq Require Import ZArith Lia.
From Verif Require Import Base Quad Interp FftModel PipeModel HodModel OptModel ChainModel PredModel MiniModel AupModel LiaModel LhModel LnModel.
From Verif Require Import PipeSpec PipeFacts AupSpec LiaSpec LhSpec LhSpec2 LnSpec LhFacts LhFacts2 LhFacts3 LhFacts4 LhFacts5 LhFacts6 LhFacts7 LhFacts8 LhFacts9 LhFacts10.
Open Scope R_scope.

Lemma same_setup missing wrong rows opens o : ln_setup missing wrong rows opens o = lh_setup missing wrong rows opens o.
Proof.
  unfold ln_setup. destruct (lh_setup missing wrong rows opens o) as [c | e] eqn:H; [| reflexivity]. cbn [bind].
  unfold lh_setup in H. do 12 (apply bind_ok in H; destruct H as (? & _ & H)). apply bind_ok in H; destruct H as (t & B & _).
  unfold lh_bins in B. destruct (OptModel.has_value o "observables_file").
  - apply bind_ok in B; destruct B as (f & -> & _). reflexivity.
  - destruct (_ && _)%bool.
    { do 6 (apply bind_ok in B; destruct B as (? & _ & B)). discriminate. }
    apply bind_ok in B; destruct B as (? & -> & B). apply bind_ok in B; destruct B as (? & -> & B). apply bind_ok in B; destruct B as (? & -> & B).
    apply bind_ok in B; destruct B as (? & -> & B). apply bind_ok in B; destruct B as (n & N & _). cbn [bind].
    unfold get_count in N. unfold option_at. destruct (o "nz"%string); [reflexivity | discriminate].
Qed.

Section Run.
  Variable c : hconfig.
  Lemma labels_frame b b' r : do_puts false (ln_labels c) b = (b', r) -> only_labels b b' (h_section c) (h_obssec c).
  Proof.
    intros H s n N1 N2. apply (do_puts_frame _ _ _ _ _ _ _ H). intros v I. unfold ln_labels, lh_labels in I.
    destruct (h_save c); cbn in I; repeat (destruct I as [I | I]; [injection I; intros; subst; tauto |]); exact I.
  Qed.
  Lemma halobias_unknown model : ~ In "halobias"%string (class_defaults model).
  Proof.
    unfold class_defaults. repeat (destruct (String.eqb model _); [intros I; cbn in I; repeat (destruct I as [I | I]; [discriminate |]); exact I |]). intros [].
  Qed.
  Lemma arguments_halobias names b kw : ln_arguments c names b = Ok kw -> In "halobias"%string (map fst kw).
  Proof.
    intros H. unfold ln_arguments in H. apply bind_ok in H; destruct H as (i & _ & H). apply bind_ok in H; destruct H as (l & _ & H).
    apply bind_ok in H; destruct H as (hb & _ & H). injection H as <-. cbn. right. right. rewrite map_app. apply in_or_app. right. cbn. tauto.
  Qed.
  Lemma class_refuses component names b kw : strict component -> ln_arguments c names b = Ok kw -> ln_class component c kw = Err "ValueError"%string.
  Proof.
    intros S H. unfold ln_class. apply (S _ _ "halobias"%string); [| apply halobias_unknown]. apply filter_In. split; [apply (arguments_halobias _ _ _ H) | reflexivity].
  Qed.
  Lemma never component rest b : strict component -> exists b' e, ln_execute component rest c b = (b', Err e) /\ only_labels b b' (h_section c) (h_obssec c).
  Proof.
    intros S. unfold ln_execute, then_. destruct (do_puts false (ln_labels c) b) as [b' r] eqn:P. pose proof (labels_frame _ _ _ P) as F. cbn [fst snd].
    destruct r as [u | e]; [| now exists b', e]. destruct (legacy_parameters (h_model c)) as [names |]; [| now exists b', "KeyError"%string].
    destruct (ln_arguments c names b') as [kw | e] eqn:A; cbn [bind]; [| now exists b', e]. rewrite (class_refuses component names b' kw S A). cbn [bind]. now exists b', "ValueError"%string.
  Qed.

  Lemma value_reads p b x : reads b (h_values c) p x -> ln_value c p b = Ok x.
  Proof. intros [H | (k & H & ->)]; unfold ln_value, LiaModel.has_value, block_num; rewrite H; reflexivity. Qed.
  Lemma list_reads p b bins (f : nat -> R) : (forall k, In k bins -> reads b (h_values c) (p ++ suffix (h_nbins c) k) (f k)) -> ln_list c p bins b = Ok (map f bins).
  Proof.
    induction bins as [| k t IH]; intros H; [reflexivity |]. cbn [ln_list map]. rewrite (value_reads _ _ _ (H k (or_introl eq_refl))). cbn [bind].
    rewrite IH by (intros; apply H; now right). reflexivity.
  Qed.
  Lemma params_given b names : (forall p, In p names -> if String.eqb (h_model c) "Cacciato" then exists x, reads b (h_values c) p x
      else exists f : nat -> R, forall k, (k < h_nbins c)%nat -> reads b (h_values c) (PipeSpec.bin_name p (h_nbins c) k) (f k)) ->
    exists l, ln_params c names b = Ok l /\ map fst l = names /\ forall p, In p names -> given b (h_values c) (h_model c) (h_nbins c) l p.
  Proof.
    induction names as [| p t IH]; intros H; [exists []; repeat split; intros ? [] |].
    destruct IH as (l & E & M & G); [intros; apply H; now right |]. cbn [ln_params]. specialize (H p (or_introl eq_refl)). unfold given in *.
    destruct (String.eqb (h_model c) "Cacciato").
    - destruct H as (x & Hx). rewrite (value_reads _ _ _ Hx). cbn [bind]. rewrite E. cbn [bind]. eexists. split; [reflexivity |]. split; [cbn; now rewrite M |].
      intros q [<- | I]; [exists x; split; [now left | exact Hx] |]. destruct (G q I) as (y & Iy & Ry). exists y. split; [now right | exact Ry].
    - destruct H as (f & Hf). rewrite (list_reads p b (seq 0 (h_nbins c)) f). 2:{ intros k K. apply in_seq in K. rewrite suffix_name. apply Hf. lia. }
      cbn [bind]. rewrite E. cbn [bind]. eexists. split; [reflexivity |]. split; [cbn; now rewrite M |].
      intros q [<- | I].
      + exists (map f (seq 0 (h_nbins c))). split; [now left |]. split; [rewrite map_length; apply seq_length |]. intros k K.
        rewrite (nth_indep _ _ (f 0%nat)) by (rewrite map_length, seq_length; lia). rewrite map_nth, seq_nth by lia. apply Hf. exact K.
      + destruct (G q I) as (y & Iy & Ry). exists y. split; [now right | exact Ry].
  Qed.
End Run.

(** Where the block has what the module with the loop asks for. *)
Section Reached.
  Variables (missing wrong : string) (rows : string -> res (list (R * R * R))) (opens : string -> res unit) (o : options) (b : dblock) (sec osec vals : string) (c : hod_ctx) (md : hod_model) (c' : hconfig).
  Hypothesis Says : hod_says rows o b sec osec vals true c md.
  Hypothesis Apart : apart sec osec vals.
  Hypothesis Set_ : lh_setup missing wrong rows opens o = Ok c'.
  Hypothesis Fresh : forall n, b sec n = None /\ b osec n = None.
  Lemma config_is : h_section c' = sec /\ h_obssec c' = osec /\ h_values c' = vals /\ h_nbins c' = nbins (c_set c).
  Proof.
    destruct Says as (S1 & (t & T & ->) & (u & U & ->) & (v & V & ->) & _). destruct (setup_names _ _ _ _ _ _ Set_) as (H1 & H2 & H3 & _).
    split; [apply H1, T |]. split; [apply H2, U |]. split; [apply H3, V |]. apply (setup_described _ _ _ _ _ _ _ S1 Set_).
  Qed.
  Lemma labels_run : exists b1, do_puts false (ln_labels c') b = (b1, Ok tt).
  Proof.
    destruct config_is as (E1 & E2 & _). destruct Apart as (N & _). apply do_puts_runs; unfold ln_labels, lh_labels; rewrite E1, E2.
    - destruct (h_save c'); cbn; repeat constructor; cbn; intuition (try discriminate); congruence.
    - intros p q Ip Iq. destruct (h_save c'); cbn in Iq; repeat (destruct Iq as [<- | Iq]; [intros [] |]); destruct Iq.
    - intros p Ip. destruct (h_save c'); cbn in Ip; repeat (destruct Ip as [<- | Ip]; [cbn; apply Fresh |]); destruct Ip.
  Qed.
  Lemma model_is : exists name, text o "hod_model" "Cacciato" name /\ h_model c' = name /\ legacy_parameters name = Some (parameters_of_model name) /\
    (name = "Cacciato" \/ name = "Zheng" \/ name = "Zhai")%string /\
    (forall p, In p (parameters_of_model name) -> if String.eqb name "Cacciato" then exists x, reads b vals p x
      else exists f : nat -> R, forall k, (k < nbins (c_set c))%nat -> reads b vals (PipeSpec.bin_name p (nbins (c_set c)) k) (f k)) /\
    (exists a, may_read b vals "A_cen" a) /\ (exists a, may_read b vals "A_sat" a).
  Proof.
    destruct Says as (_ & _ & _ & _ & _ & (name & T & M) & _). destruct (setup_names _ _ _ _ _ _ Set_) as (_ & _ & _ & H4 & _).
    exists name. split; [exact T |]. split; [apply H4, T |].
    destruct md; cbn [model_says] in M; try contradiction.
    - destruct M as (-> & M). split; [reflexivity |]. split; [now left |]. split.
      + intros q I. cbn. cbn in I. repeat (destruct I as [<- | I]; [eexists; apply M |]). destruct I.
      + split; eexists; apply M.
    - destruct M as (-> & M). split; [reflexivity |]. split; [tauto |]. split.
      + intros q I. cbn. cbn in I. repeat (destruct I as [<- | I]; [eexists; apply M |]). destruct I.
      + split; eexists; apply M.
    - destruct M as (-> & M). split; [reflexivity |]. split; [tauto |]. split.
      + intros q I. cbn. cbn in I. repeat (destruct I as [<- | I]; [eexists; apply M |]). destruct I.
      + split; eexists; apply M.
  Qed.
  Lemma assembly_reads b1 n a : may_read b1 (h_values c') n a -> lh_assembly c' b1 n = Ok a.
  Proof.
    unfold lh_assembly, LiaModel.has_value, block_num. destruct a as [x |]; cbn; [intros [-> | (k & -> & ->)] | intros ->]; reflexivity.
  Qed.
  Lemma reached : exists kw b1 name, text o "hod_model" "Cacciato" name /\ only_labels b b1 sec osec /\
    (forall component rest, strict component -> ln_execute component rest c' b = (b1, Err "ValueError"%string)) /\
    (forall component rest, takes component ["halobias"%string] -> ln_execute component rest c' b = rest kw b1) /\
    NoDup (map fst kw) /\ ~ In "halo_bias"%string (map fst kw) /\ (forall p, In p (parameters_of_model name) -> given b vals name (nbins (c_set c)) kw p) /\
    (exists mass z dn hb, b "hmf"%string "m_h"%string = Some (BArr mass) /\ b "hmf"%string "z"%string = Some (BArr z) /\ b "hmf"%string "dndlnmh"%string = Some (BTab dn) /\ b "halobias"%string "b_hb"%string = Some (BTab hb) /\
      In ("mass"%string, KArr mass) kw /\ In ("z_vec"%string, KArr z) kw /\ In ("dndlnm"%string, KTab dn) kw /\ In ("halobias"%string, KTab hb) kw) /\
    (exists a s, may_read b vals "A_cen" a /\ may_read b vals "A_sat" s /\ In ("A_cen"%string, KNum a) kw /\ In ("A_sat"%string, KNum s) kw) /\
    In ("hod_settings"%string, KSettings (hs_nobs (c_set c))) kw.
  Proof.
    destruct config_is as (E1 & E2 & E3 & E4). destruct labels_run as (b1 & P). pose proof (labels_frame _ _ _ _ P) as F. rewrite E1, E2 in F.
    assert (O : forall s n, In s [vals; "hmf"; "halobias"]%string -> b1 s n = b s n).
    { intros s n I. destruct Apart as (_ & A). destruct (A s) as (A1 & A2); [cbn in *; tauto |]. apply F; intros [E _]; contradiction. }
    destruct model_is as (name & T & Em & Ep & Three & M & (a & Ma) & (s & Ms)).
    pose proof (proj2 (proj2 (proj2 (proj2 (proj2 (proj2 Says)))))) as Ha. destruct Ha as ((mass & z & dn & B1 & B2 & B3 & _ & _ & _ & _ & _ & Hb) & _). destruct (Hb eq_refl) as (hb & _ & B4 & _).
    assert (Rv : forall n x, reads b vals n x -> reads b1 (h_values c') n x).
    { intros n x H. rewrite E3. unfold reads. rewrite (O vals n) by now left. exact H. }
    assert (Mv : forall n x, may_read b vals n x -> may_read b1 (h_values c') n x).
    { intros n [x |] H; [apply Rv, H |]. cbn in *. rewrite E3, (O vals n) by now left. exact H. }
    destruct (params_given c' b1 (parameters_of_model name)) as (l & L & Ln & G).
    { intros p I. specialize (M p I). rewrite Em, E4. destruct (String.eqb name "Cacciato"); [destruct M as (x & M); exists x; now apply Rv |].
      destruct M as (f & M). exists f. intros k K. apply Rv, M, K. }
    set (i := {| i_dn := dn; i_mass := mass; i_z := z; i_Acen := a; i_Asat := s |}).
    assert (In_ : lh_input c' b1 = Ok i).
    { unfold lh_input, table_at, array. rewrite !(O "hmf"%string) by (cbn; tauto). rewrite B1, B2, B3. cbn [bind]. rewrite (assembly_reads _ _ _ (Mv _ _ Ma)). cbn [bind]. rewrite (assembly_reads _ _ _ (Mv _ _ Ms)). reflexivity. }
    assert (Hh : table_at b1 "halobias" "b_hb" = Ok hb). { unfold table_at. rewrite (O "halobias"%string) by (cbn; tauto). now rewrite B4. }
    set (kw := ([("A_cen", KNum a); ("A_sat", KNum s)] ++ l ++ [("mass", KArr mass); ("dndlnm", KTab dn); ("z_vec", KArr z); ("halobias", KTab hb); ("hod_settings", KSettings (h_nobs c'))])%list%string).
    assert (K : ln_arguments c' (parameters_of_model name) b1 = Ok kw). { unfold ln_arguments. rewrite In_. cbn [bind]. rewrite L. cbn [bind]. rewrite Hh. reflexivity. }
    assert (Kn : map fst kw = (["A_cen"; "A_sat"] ++ parameters_of_model name ++ ["mass"; "dndlnm"; "z_vec"; "halobias"; "hod_settings"])%list%string). { unfold kw. rewrite !map_app, Ln. reflexivity. }
    assert (X : forall component rest, ln_execute component rest c' b = match ln_class component c' kw with Ok _ => rest kw b1 | Err e => (b1, Err e) end).
    { intros. unfold ln_execute, then_. rewrite P. cbn [fst snd]. rewrite Em, Ep, K. cbn [bind]. destruct (ln_class component c' kw); reflexivity. }
    exists kw, b1, name. split; [exact T |]. split; [exact F |].
    split. { intros component rest S. rewrite X, (class_refuses c' component _ b1 kw S K). reflexivity. }
    split. { intros component rest Tk. rewrite X. unfold ln_class. rewrite Tk; [reflexivity |]. intros n I. rewrite Em, Kn in *. clear - I Three. destruct Three as [-> | [-> | ->]]; cbn in *; intuition. }
    split. { rewrite Kn. clear - Three. destruct Three as [-> | [-> | ->]]; cbn; repeat constructor; cbn; intuition discriminate. }
    split. { rewrite Kn. clear - Three. destruct Three as [-> | [-> | ->]]; cbn; intuition discriminate. }
    split.
    { intros p I. specialize (G p I). unfold given in *. rewrite Em, E4, E3 in G. unfold reads in *. destruct (String.eqb name "Cacciato").
      - destruct G as (x & Ix & Hx). rewrite (O vals) in Hx by now left. exists x. split; [| exact Hx]. unfold kw. apply in_or_app. right. apply in_or_app. now left.
      - destruct G as (x & Ix & Lx & Hx). exists x. split; [unfold kw; apply in_or_app; right; apply in_or_app; now left |]. split; [exact Lx |]. intros k Hk. specialize (Hx k Hk). rewrite (O vals) in Hx by now left. exact Hx. }
    assert (Q : forall q, In q [("mass", KArr mass); ("dndlnm", KTab dn); ("z_vec", KArr z); ("halobias", KTab hb); ("hod_settings", KSettings (h_nobs c'))]%string -> In q kw).
    { intros q I. unfold kw. apply in_or_app. right. apply in_or_app. now right. }
    split. { exists mass, z, dn, hb. repeat (split; [assumption |]). repeat split; apply Q; cbn; tauto. }
    split. { exists a, s. split; [exact Ma |]. split; [exact Ms |]. split; cbn; tauto. }
    destruct (setup_described _ _ _ _ _ _ _ (proj1 Says) Set_) as (_ & _ & N & _). rewrite <- N. apply Q. cbn. tauto.
  Qed.
End Reached.
