(** Consequences of the closed form: settings, history independence, overrides. *)
From Verif Require Import Base Quad HmiModel HmiSpec HmiFacts3.
Open Scope R_scope.

Section Gen.
  Variable H : hmi.
  Variable dset : dict -> dict -> dict.
  Variable mset : string -> string -> dict -> dict.
  Variable sigma8 : hpar -> R.
  Variable prof0 : dict.
  Hypothesis HL : setting_law dset.
  Hypothesis HM : model_law mset.
  Hypothesis H8 : sigma8_law sigma8.
  Let gen H' := hmf_generator H' dset mset sigma8 prof0.

  Lemma nth_error_one {A} (l : list A) a : List.length l = 1%nat -> nth_error l 0 = Some a -> l = [a].
  Proof. destruct l as [|b [|c l]]; cbn; intros E1 E2; try discriminate. injection E2 as ->. reflexivity. Qed.

  Lemma shape_one v nz i : shape_ok v nz -> entry [entry v i] 0 = entry v i.
  Proof. intros _. reflexivity. Qed.

  Lemma cen_at_one i : cen_at (at_redshift H i) dset sigma8 prof0 0 = cen_at H dset sigma8 prof0 i.
  Proof. unfold cen_at. destruct H; cbn. destruct hi_ingr; reflexivity. Qed.
  Lemma sat_at_one i : sat_at (at_redshift H i) dset mset sigma8 prof0 0 = sat_at H dset mset sigma8 prof0 i.
  Proof. unfold sat_at. destruct H; cbn. destruct hi_ingr; reflexivity. Qed.

  Lemma one_by_one : hi_z H <> [] -> shapes_ok H ->
    exists cs ss, gen H = Ok (cs, ss) /\
      List.length cs = List.length (hi_z H) /\ List.length ss = List.length (hi_z H) /\
      forall i, (i < List.length (hi_z H))%nat ->
        exists x y, nth_error cs i = Some x /\ nth_error ss i = Some y /\
                    gen (at_redshift H i) = Ok ([x], [y]).
  Proof.
    intros Hz HS. destruct (generator_closed H dset mset sigma8 prof0 HL HM H8 Hz HS)
      as (cs & ss & E & L1 & L2 & N).
    exists cs, ss. split; [exact E|]. split; [exact L1|]. split; [exact L2|].
    intros i Hi. destruct (N i Hi) as [N1 N2]. eexists. eexists. split; [exact N1|]. split; [exact N2|].
    destruct (generator_closed (at_redshift H i) dset mset sigma8 prof0 HL HM H8)
      as (cs' & ss' & E' & L1' & L2' & N').
    { cbn. discriminate. }
    { cbv [shapes_ok at_redshift shape_ok]; cbn. intuition. }
    cbn in L1', L2', N'. destruct (N' 0%nat) as [N1' N2']; [lia|].
    unfold gen. rewrite E'. rewrite (nth_error_one cs' _ L1' N1'), (nth_error_one ss' _ L2' N2').
    rewrite cen_at_one, sat_at_one. reflexivity.
  Qed.

  Lemma get_back (o n : dict) k v : NoDup (map fst n) -> dget n k = Some v -> dget (dset o n) k = Some v.
  Proof. apply HL. Qed.
  Lemma nd1 (k : string) (a : R) : NoDup (map fst [(k, a)]).
  Proof. repeat constructor. cbn. tauto. Qed.
  Lemma nd2 (a b : R) : NoDup (map fst [("norm"%string, a); ("K"%string, b)]).
  Proof. repeat constructor; cbn; intuition discriminate. Qed.

  Lemma cen_settings i : (i < List.length (hi_z H))%nat ->
    settings_of H sigma8 i (hi_prof_dm H) (hi_conc_dm H) (entry (hi_norm_cen H) i) (entry (hi_eta_cen H) i)
      (cen_at H dset sigma8 prof0 i).
  Proof.
    intros Hi. unfold settings_of, cen_at.
    destruct (is_mead (hi_ingr H)) eqn:M.
    - unfold cen_mead. set (x1 := upd_z _ _ _ _ _). cbn [upd_par hp_z hp_prof hp_conc_par].
      split; [reflexivity|]. split; [reflexivity|].
      split; [apply get_back; [apply nd2|reflexivity]|].
      unfold x1; cbn. unfold mdef_mod, hmf_mod, bias_mod, conc_mod_dm, disable_mass_conversion. rewrite M.
      rewrite (mdef_set H dset HL).
      split; [reflexivity|]. split; [reflexivity|]. split; [reflexivity|]. split; [reflexivity|].
      split; [reflexivity|]. split; [unfold mdef_params; rewrite M; reflexivity|].
      split; [unfold delta_c_mod; rewrite M; reflexivity|].
      split; [apply get_back; [apply nd2|reflexivity]|].
      erewrite (get_back _ _ "eta_bloat"%string); [|apply nd1|reflexivity]. unfold mead_eta. do 3 f_equal.
      apply H8; cbn; unfold mdef_mod, hmf_mod, bias_mod, disable_mass_conversion; try rewrite M;
        rewrite ?(mdef_set H dset HL); reflexivity.
    - unfold cen_plain. cbn.
      split; [reflexivity|]. split; [reflexivity|].
      split; [apply get_back; [apply nd1|reflexivity]|].
      unfold mdef_mod, hmf_mod, bias_mod, conc_mod_dm, disable_mass_conversion. rewrite M.
      rewrite (mdef_set H dset HL).
      split; [reflexivity|]. split; [reflexivity|]. split; [reflexivity|]. split; [reflexivity|].
      split; [reflexivity|].
      split; [|split; [|apply get_back; [apply nd1|reflexivity]]].
      + intros N. unfold mdef_params, delta_c_mod. rewrite M. apply String.eqb_neq in N. rewrite N.
        split; [reflexivity|]. ring.
      + intros E. unfold mdef_params, delta_c_mod. rewrite M, E. cbn. split; reflexivity.
  Qed.

  Lemma sat_settings i : (i < List.length (hi_z H))%nat ->
    settings_of H sigma8 i (hi_prof_sat H) (hi_conc_sat H) (entry (hi_norm_sat H) i) (entry (hi_eta_sat H) i)
      (sat_at H dset mset sigma8 prof0 i).
  Proof.
    intros Hi. unfold settings_of, sat_at.
    destruct (is_mead (hi_ingr H)) eqn:M.
    - unfold sat_mead. set (x1 := upd_models _ _ _ _). cbn [upd_par hp_z hp_prof hp_conc_par].
      split; [reflexivity|]. split; [reflexivity|].
      split; [apply get_back; [apply nd2|reflexivity]|].
      unfold x1; cbn. unfold mdef_mod, hmf_mod, bias_mod, conc_mod_sat, disable_mass_conversion. rewrite M.
      rewrite (mdef_set H dset HL).
      split; [reflexivity|]. split; [reflexivity|]. split; [reflexivity|]. split; [reflexivity|].
      split; [reflexivity|]. split; [unfold mdef_params; rewrite M; reflexivity|].
      split; [unfold delta_c_mod; rewrite M; reflexivity|].
      split; [apply get_back; [apply nd2|reflexivity]|].
      erewrite (get_back _ _ "eta_bloat"%string); [|apply nd1|reflexivity]. unfold mead_eta. do 3 f_equal.
      apply H8; cbn; unfold mdef_mod, hmf_mod, bias_mod, disable_mass_conversion; try rewrite M;
        rewrite ?(mdef_set H dset HL); reflexivity.
    - unfold sat_plain. cbn.
      split; [reflexivity|]. split; [reflexivity|].
      split; [apply get_back; [apply nd1|reflexivity]|].
      unfold mdef_mod, hmf_mod, bias_mod, conc_mod_sat, disable_mass_conversion. rewrite M.
      rewrite (mdef_set H dset HL).
      split; [reflexivity|]. split; [reflexivity|]. split; [reflexivity|]. split; [reflexivity|].
      split; [reflexivity|].
      split; [|split; [|apply get_back; [apply nd1|reflexivity]]].
      + intros N. unfold mdef_params, delta_c_mod. rewrite M. apply String.eqb_neq in N. rewrite N.
        split; [reflexivity|]. ring.
      + intros E. unfold mdef_params, delta_c_mod. rewrite M, E. cbn. split; reflexivity.
  Qed.

  (** Every redshift has its settings, and the accessors read them row by row. *)
  Lemma generator_settings : hi_z H <> [] -> shapes_ok H ->
    exists cs ss, gen H = Ok (cs, ss) /\
      List.length cs = List.length (hi_z H) /\ List.length ss = List.length (hi_z H) /\
      forall i, (i < List.length (hi_z H))%nat ->
        (exists x, nth_error cs i = Some x /\
           settings_of H sigma8 i (hi_prof_dm H) (hi_conc_dm H)
             (entry (hi_norm_cen H) i) (entry (hi_eta_cen H) i) x) /\
        (exists y, nth_error ss i = Some y /\
           settings_of H sigma8 i (hi_prof_sat H) (hi_conc_sat H)
             (entry (hi_norm_sat H) i) (entry (hi_eta_sat H) i) y).
  Proof.
    intros Hz HS. destruct (generator_closed H dset mset sigma8 prof0 HL HM H8 Hz HS)
      as (cs & ss & E & L1 & L2 & N).
    exists cs, ss. split; [exact E|]. split; [exact L1|]. split; [exact L2|].
    intros i Hi. destruct (N i Hi) as [N1 N2]. split.
    - eexists. split; [exact N1|]. apply cen_settings, Hi.
    - eexists. split; [exact N2|]. apply sat_settings, Hi.
  Qed.

  Lemma accessor_rows {A} (q : hpar -> A) : hi_z H <> [] -> shapes_ok H ->
    exists rc rs, acc_cen H dset mset sigma8 prof0 q = Ok rc /\ acc_sat H dset mset sigma8 prof0 q = Ok rs /\
      List.length rc = List.length (hi_z H) /\ List.length rs = List.length (hi_z H) /\
      forall i, (i < List.length (hi_z H))%nat ->
        exists a b, nth_error rc i = Some a /\ nth_error rs i = Some b /\
          acc_cen (at_redshift H i) dset mset sigma8 prof0 q = Ok [a] /\
          acc_sat (at_redshift H i) dset mset sigma8 prof0 q = Ok [b].
  Proof.
    intros Hz HS. destruct (one_by_one Hz HS) as (cs & ss & E & L1 & L2 & N).
    unfold gen in *. unfold acc_cen, acc_sat. rewrite E. cbn [bind fst snd].
    exists (map q cs), (map q ss). split; [reflexivity|]. split; [reflexivity|].
    split; [rewrite map_length; exact L1|]. split; [rewrite map_length; exact L2|].
    intros i Hi. destruct (N i Hi) as (x & y & N1 & N2 & G). exists (q x), (q y).
    split; [apply map_nth_error, N1|]. split; [apply map_nth_error, N2|]. rewrite G. split; reflexivity.
  Qed.
End Gen.

(** *** Overrides *)
Section NI.
  Variable dset : dict -> dict -> dict.
  Variable mset : string -> string -> dict -> dict.
  Variable sigma8 : hpar -> R.
  Variable prof0 : dict.

  Lemma K_mead H1 H2 z : agree_mead H1 H2 -> is_mead (hi_ingr H1) = true -> K H1 z = K H2 z.
  Proof.
    intros (Ei & _ & _ & _ & _ & _ & _ & _ & _ & ET) M. unfold K. rewrite <- Ei.
    destruct (hi_ingr H1) eqn:I; try discriminate M; [rewrite ET by reflexivity|]; reflexivity.
  Qed.

  Lemma loop2_ext f g : (forall x z n, f x z n = g x z n) -> forall zs x ns, loop2 f x zs ns = loop2 g x zs ns.
  Proof.
    intros E. induction zs as [|z zs IH]; intros x [|n ns]; cbn; try reflexivity. rewrite E, IH. reflexivity.
  Qed.
  Lemma loop3_ext f g : (forall x z e n, f x z e n = g x z e n) ->
    forall zs x es ns, loop3 f x zs es ns = loop3 g x zs es ns.
  Proof.
    intros E. induction zs as [|z zs IH]; intros x [|e es] [|n ns]; cbn; try reflexivity. rewrite E, IH. reflexivity.
  Qed.

  Lemma mead_overrides H1 H2 : agree_mead H1 H2 -> is_mead (hi_ingr H1) = true ->
    hmf_generator H1 dset mset sigma8 prof0 = hmf_generator H2 dset mset sigma8 prof0.
  Proof.
    intros A M. pose proof (fun z => K_mead H1 H2 z A M) as EK.
    destruct A as (Ei & Ez & Ep & Es & En & Em & Ec & Eg & EG & _).
    assert (M2 : is_mead (hi_ingr H2) = true) by (rewrite <- Ei; exact M).
    assert (D : forall z, delta_c_mod H1 z = delta_c_mod H2 z)
      by (intros; unfold delta_c_mod; rewrite M, M2, Ec, Eg, EG; reflexivity).
    assert (P : forall z, mdef_params H1 z = mdef_params H2 z)
      by (intros; unfold mdef_params; rewrite M, M2, Ec, Eg, EG; reflexivity).
    unfold hmf_generator. rewrite M, M2.
    assert (X : x0 H1 prof0 = x0 H2 prof0).
    { unfold x0. rewrite <- Ez. destruct (hi_z H1) as [|z0 zs]; [reflexivity|].
      unfold mdef_mod, hmf_mod, bias_mod, disable_mass_conversion, conc_mod_dm.
      rewrite M, M2, D, P, Ep. reflexivity. }
    rewrite X. destruct (x0 H2 prof0) as [x|]; [cbn [bind]|reflexivity].
    unfold norm_c, norm_s. rewrite <- Ez, En, Em.
    destruct (broadcast (hi_norm_cen H2) _) as [nc|]; [cbn [bind]|reflexivity].
    destruct (broadcast (hi_norm_sat H2) _) as [ns|]; [cbn [bind]|reflexivity].
    do 2 f_equal.
    - apply loop2_ext. intros. unfold cen_mead. rewrite D, P, EK. reflexivity.
    - apply loop2_ext. intros. unfold sat_mead, conc_mod_sat. rewrite M, M2, D, P, EK, Es. reflexivity.
  Qed.

  Lemma plain_independent H1 H2 : agree_plain H1 H2 ->
    hmf_generator H1 dset mset sigma8 prof0 = hmf_generator H2 dset mset sigma8 prof0.
  Proof.
    intros (M & M2 & Ez & Ed & Eh & Eb & Ep & Es & Ecd & Ecs & En & Em & Ee & Ef & EV & EO).
    assert (D : forall z, delta_c_mod H1 z = delta_c_mod H2 z).
    { intros; unfold delta_c_mod; rewrite M, M2, <- Ed.
      destruct (String.eqb_spec (hi_mdef H1) "SOVirial") as [V|V].
      - rewrite (EV V). reflexivity.
      - destruct (EO V) as [_ ->]. reflexivity. }
    assert (P : forall z, mdef_params H1 z = mdef_params H2 z).
    { intros; unfold mdef_params; rewrite M, M2, <- Ed.
      destruct (String.eqb_spec (hi_mdef H1) "SOVirial") as [V|V]; [reflexivity|].
      destruct (EO V) as [-> _]. reflexivity. }
    unfold hmf_generator. rewrite M, M2.
    assert (X : x0 H1 prof0 = x0 H2 prof0).
    { unfold x0. rewrite <- Ez. destruct (hi_z H1) as [|z0 zs]; [reflexivity|].
      unfold mdef_mod, hmf_mod, bias_mod, disable_mass_conversion, conc_mod_dm.
      rewrite M, M2, D, P, Ep, Ed, Eh, Eb, Ecd. reflexivity. }
    rewrite X. destruct (x0 H2 prof0) as [x|]; [cbn [bind]|reflexivity].
    unfold norm_c, norm_s, eta_c, eta_s. rewrite <- Ez, En, Em, Ee, Ef.
    destruct (broadcast (hi_eta_cen H2) _) as [ec|]; [cbn [bind]|reflexivity].
    destruct (broadcast (hi_norm_cen H2) _) as [nc|]; [cbn [bind]|reflexivity].
    destruct (broadcast (hi_eta_sat H2) _) as [es|]; [cbn [bind]|reflexivity].
    destruct (broadcast (hi_norm_sat H2) _) as [ns|]; [cbn [bind]|reflexivity].
    do 2 f_equal.
    - apply loop3_ext. intros. unfold cen_plain. rewrite D, P. reflexivity.
    - apply loop3_ext. intros. unfold sat_plain, conc_mod_sat. rewrite M, M2, D, P, Es, Ecs. reflexivity.
  Qed.
End NI.

(** *** When the generator refuses *)
Definition bad_shape (v : list R) (nz : nat) : Prop :=
  List.length v <> 1%nat /\ List.length v <> nz /\ nz <> 1%nat.

Lemma bc_dec v nz :
  ((exists w, broadcast v nz = Ok w) /\ ~ bad_shape v nz) \/
  ((exists e, broadcast v nz = Err e) /\ bad_shape v nz).
Proof.
  unfold bad_shape. pose proof (broadcast_bad v nz) as [B1 B2].
  destruct (broadcast v nz) as [w|e]; [left|right].
  - split; [eexists; reflexivity|]. intros Q. destruct (B2 Q). discriminate.
  - split; [eexists; reflexivity|]. apply B1. eexists. reflexivity.
Qed.

Lemma generator_rejects_aux H dset mset sigma8 prof0 :
  (exists e, hmf_generator H dset mset sigma8 prof0 = Err e) <->
  hi_z H = [] \/ let bad v := bad_shape v (List.length (hi_z H)) in
  bad (hi_norm_cen H) \/ bad (hi_norm_sat H) \/
  (is_mead (hi_ingr H) = false /\ (bad (hi_eta_cen H) \/ bad (hi_eta_sat H))).
Proof.
  cbv zeta. unfold hmf_generator, x0.
  pose proof (bc_dec (hi_norm_cen H) (List.length (hi_z H))) as B1.
  pose proof (bc_dec (hi_norm_sat H) (List.length (hi_z H))) as B2.
  pose proof (bc_dec (hi_eta_cen H) (List.length (hi_z H))) as B3.
  pose proof (bc_dec (hi_eta_sat H) (List.length (hi_z H))) as B4.
  unfold norm_c, norm_s, eta_c, eta_s.
  set (P1 := bad_shape (hi_norm_cen H) _) in *.
  set (P2 := bad_shape (hi_norm_sat H) _) in *.
  set (P3 := bad_shape (hi_eta_cen H) _) in *.
  set (P4 := bad_shape (hi_eta_sat H) _) in *.
  clearbody P1 P2 P3 P4.
  set (l := List.length (hi_z H)) in *. clearbody l.
  destruct (hi_z H) as [|z zs].
  { cbn. split; [intros _; left; reflexivity|intros _; eexists; reflexivity]. }
  cbn [bind].
  destruct (is_mead (hi_ingr H)).
  - destruct B1 as [[[w1 ->] N1]|[[e1 ->] Q1]]; cbn [bind].
    + destruct B2 as [[[w2 ->] N2]|[[e2 ->] Q2]]; cbn [bind].
      * split; [intros [e Q]; discriminate|].
        intros [Q|[Q|[Q|[Q _]]]]; [discriminate|contradiction|contradiction|discriminate].
      * split; [intros _; right; right; left; exact Q2|intros _; eexists; reflexivity].
    + split; [intros _; right; left; exact Q1|intros _; eexists; reflexivity].
  - destruct B3 as [[[w3 ->] N3]|[[e3 ->] Q3]]; cbn [bind].
    + destruct B1 as [[[w1 ->] N1]|[[e1 ->] Q1]]; cbn [bind].
      * destruct B4 as [[[w4 ->] N4]|[[e4 ->] Q4]]; cbn [bind].
        -- destruct B2 as [[[w2 ->] N2]|[[e2 ->] Q2]]; cbn [bind].
           ++ split; [intros [e Q]; discriminate|].
              intros [Q|[Q|[Q|[_ [Q|Q]]]]]; [discriminate|contradiction..].
           ++ split; [intros _; right; right; left; exact Q2|intros _; eexists; reflexivity].
        -- split; [intros _; do 3 right; split; [reflexivity|right; exact Q4]|intros _; eexists; reflexivity].
      * split; [intros _; right; left; exact Q1|intros _; eexists; reflexivity].
    + split; [intros _; do 3 right; split; [reflexivity|left; exact Q3]|intros _; eexists; reflexivity].
Qed.

Lemma generator_rejects H dset mset sigma8 prof0 :
  (exists e, hmf_generator H dset mset sigma8 prof0 = Err e) <->
  hi_z H = [] \/
  let nz := List.length (hi_z H) in let bad v := List.length v <> 1%nat /\ List.length v <> nz /\ nz <> 1%nat in
  bad (hi_norm_cen H) \/ bad (hi_norm_sat H) \/
  (is_mead (hi_ingr H) = false /\ (bad (hi_eta_cen H) \/ bad (hi_eta_sat H))).
Proof. exact (generator_rejects_aux H dset mset sigma8 prof0). Qed.
