(** Proofs about the keyword arguments: the module around a store of parameters. *)
From Coq Require Import ZArith FunctionalExtensionality.
From Verif Require Import Base Spec Interp HodModel PkModel AddModel AddSpec PipeModel PipeSpec PipeFacts PipeFacts2 PipeFacts3 PipeFacts4 PipeFacts5 PipeFacts6
  OptModel OptSpec BaseFacts OptFacts OptFacts2 OptFacts3 OptFacts4 KwModel KwSpec KwFacts.
Open Scope string_scope.

(** ** Dictionaries *)
Section Dict.
  Context {V : Type}.
  Lemma dget_In (d : dict V) n : In n (map fst d) <-> exists v, dget d n = Some v.
  Proof.
    induction d as [|[k v] d IH]; cbn; [split; [intros []|intros [v H]; discriminate H]|].
    destruct (String.eqb_spec n k) as [->|N]; [split; [eauto|tauto]|]. rewrite <- IH. split; [intros [E|H]; [congruence|exact H]|tauto].
  Qed.
  Lemma dset_keys (d : dict V) k v n : In n (map fst (dset d k v)) <-> n = k \/ In n (map fst d).
  Proof.
    induction d as [|[k' v'] d IH]; cbn; [intuition congruence|].
    destruct (String.eqb_spec k k') as [->|N]; cbn; [intuition congruence|].
    rewrite IH. tauto.
  Qed.
  Lemma dset_nodup (d : dict V) k v : NoDup (map fst d) -> NoDup (map fst (dset d k v)).
  Proof.
    induction d as [|[k' v'] d IH]; cbn; intros H; [constructor; [intros []|constructor]|]. inversion H as [|? ? N1 N2]; subst.
    destruct (String.eqb_spec k k') as [->|N]; cbn; [exact H|]. constructor; [rewrite dset_keys; intros [E|I]; [congruence|contradiction]|apply IH, N2].
  Qed.
  Lemma dupdate_keys (e : dict V) : forall d n, In n (map fst (dupdate d e)) <-> In n (map fst e) \/ In n (map fst d).
  Proof.
    induction e as [|[k v] e IH]; intros d n; [cbn; tauto|]. unfold dupdate in *. cbn [fold_left fst snd map]. rewrite IH, dset_keys. cbn [In].
    split; [intros [H|[->|H]]; tauto|intros [[->|H]|H]; tauto].
  Qed.
  Lemma dupdate_nodup (e : dict V) : forall d, NoDup (map fst d) -> NoDup (map fst (dupdate d e)).
  Proof. induction e as [|[k v] e IH]; intros d H; [exact H|]. apply IH. apply dset_nodup, H. Qed.
  Lemma dupdate_get (e : dict V) : NoDup (map fst e) -> forall d n,
    dget (dupdate d e) n = match dget e n with Some v => Some v | None => dget d n end.
  Proof.
    induction e as [|[k v] e IH]; intros H d n; [reflexivity|]. cbn [map fst] in H. inversion H as [|? ? N1 N2]; subst.
    unfold dupdate in *. cbn [fold_left fst snd dget]. rewrite (IH N2). destruct (String.eqb_spec n k) as [->|N].
    - destruct (dget e k) as [w|] eqn:E; [exfalso; apply N1, dget_In; eauto|]. rewrite dget_dset. destruct (string_dec k k); congruence.
    - destruct (dget e n); [reflexivity|]. rewrite dget_dset. destruct (string_dec n k); congruence.
  Qed.
End Dict.
Definition nd := (fix nd l := match l with [] => true | x :: t => andb (negb (existsb (String.eqb x) t)) (nd t) end).
Definition subset (l l' : list string) : bool := forallb (fun x => existsb (String.eqb x) l') l.
Lemma subset_incl l l' : subset l l' = true -> forall n, In n l -> In n l'.
Proof.
  intros H n I. unfold subset in H. rewrite forallb_forall in H. specialize (H n I). apply existsb_exists in H as (x & Hx & E).
  apply String.eqb_eq in E. subst x. exact Hx.
Qed.
Lemma subset_eq l l' : (subset l l' && subset l' l)%bool = true -> forall n, In n l <-> In n l'.
Proof. intros H n. apply andb_prop in H as [H1 H2]. split; apply subset_incl; assumption. Qed.

Section Module.
  Variables (table : Type) (missing wrong : string) (S : spectra table) (m : module_config).
  Notation kv := (kv table).
  Notation X := (module_ext table missing wrong S m).
  Let c := config_of m.

  (** ** The store *)
  Lemma set_res_same kw : forall o1 o2, snd (set_all table S o1 kw) = snd (set_all table S o2 kw).
  Proof.
    induction kw as [|[n v] kw IH]; intros o1 o2; cbn [set_all]; [reflexivity|].
    destruct (known n).
    - destruct (s_check table S n v); [apply IH|reflexivity].
    - specialize (IH o1 o2). destruct (set_all table S o1 kw), (set_all table S o2 kw). cbn in *. now rewrite IH.
  Qed.
  Lemma set_frame kw : forall o n, ~ In n (map fst kw) -> fst (set_all table S o kw) n = o n.
  Proof.
    induction kw as [|[k v] kw IH]; intros o n H; cbn [set_all]; [reflexivity|]. cbn [map fst In] in H.
    destruct (known k).
    - destruct (s_check table S k v); [|reflexivity]. rewrite IH by tauto. unfold assign. destruct (String.eqb_spec n k) as [->|]; [tauto|reflexivity].
    - specialize (IH o n). destruct (set_all table S o kw). cbn in *. apply IH. tauto.
  Qed.
  Lemma set_value kw : NoDup (map fst kw) -> forall o n v, snd (set_all table S o kw) = Ok tt -> dget kw n = Some v ->
    fst (set_all table S o kw) n = v.
  Proof.
    induction kw as [|[k w] kw IH]; intros H o n v; cbn [set_all]; [intros _ C; discriminate C|]. cbn [map fst] in H. inversion H as [|? ? N1 N2]; subst.
    cbn [dget]. destruct (known k).
    - destruct (s_check table S k w); [|intros C; discriminate C]. intros E G. destruct (String.eqb_spec n k) as [->|N].
      + injection G as ->. rewrite set_frame by exact N1. unfold assign. now rewrite String.eqb_refl.
      + apply (IH N2 _ _ _ E G).
    - destruct (set_all table S o kw) as [o' [[]|]]; intros C; discriminate C.
  Qed.
  Lemma set_equal kw o1 o2 : NoDup (map fst kw) -> (forall n, ~ In n (map fst kw) -> o1 n = o2 n) ->
    snd (set_all table S o1 kw) = Ok tt -> fst (set_all table S o1 kw) = fst (set_all table S o2 kw).
  Proof.
    intros N A E. extensionality n. destruct (in_dec string_dec n (map fst kw)) as [I|I].
    - apply dget_In in I as (v & G). rewrite (set_value kw N o1 n v E G). rewrite (set_res_same kw o1 o2) in E.
      rewrite (set_value kw N o2 n v E G). reflexivity.
    - rewrite !set_frame by exact I. apply A, I.
  Qed.
  Lemma set_known kw : (forall n, In n (map fst kw) -> known n = true) -> (forall n v, dget kw n = Some v -> s_check table S n v = Ok tt) ->
    NoDup (map fst kw) -> forall o, snd (set_all table S o kw) = Ok tt.
  Proof.
    induction kw as [|[k w] kw IH]; intros K C N o; cbn [set_all]; [reflexivity|].
    cbn [map fst] in N. inversion N as [|? ? N1 N2]; subst.
    rewrite (K k (or_introl eq_refl)). rewrite (C k w) by (cbn; now rewrite String.eqb_refl).
    apply IH; [intros n I; apply K; right; exact I| |exact N2]. intros n v G. apply C. cbn. destruct (String.eqb_spec n k) as [->|]; [|exact G].
    exfalso. apply N1, dget_In. eauto.
  Qed.

  Lemma update_store kw o : fst (update_all table S o kw) = fst (set_all table S o kw).
  Proof. unfold update_all. destruct (set_all table S o kw). reflexivity. Qed.
  Lemma update_ok kw o : snd (update_all table S o kw) = Ok tt -> snd (set_all table S o kw) = Ok tt.
  Proof. unfold update_all. destruct (set_all table S o kw) as [o' [[]|]]; cbn; [reflexivity|intros E; discriminate E]. Qed.
  Lemma update_same kw o1 o2 : NoDup (map fst kw) -> (forall n, ~ In n (map fst kw) -> o1 n = o2 n) ->
    snd (update_all table S o1 kw) = snd (update_all table S o2 kw) /\
    (snd (update_all table S o1 kw) = Ok tt -> fst (update_all table S o1 kw) = fst (update_all table S o2 kw)).
  Proof.
    intros N A. pose proof (set_res_same kw o1 o2) as R. pose proof (set_equal kw o1 o2 N A) as Q. unfold update_all.
    destruct (set_all table S o1 kw) as [s1 r1], (set_all table S o2 kw) as [s2 r2]. cbn [fst snd] in *. subst r2.
    destruct r1 as [[]|]; [|split; [reflexivity|intros E; discriminate E]]. rewrite (Q eq_refl). split; reflexivity.
  Qed.

  (** ** The keywords *)
  Ltac inv_binds H := repeat match type of H with
    | bind ?r _ = Ok _ => let E := fresh "E" in destruct r eqn:E; [cbn [bind] in H|discriminate H] end.
  Definition base_keys : list string :=
    ["matter_power_lin"; "hmcode_ingredients"; "nonlinear_mode"; "dewiggle"; "k_vec"; "z_vec"; "lnk_min"; "lnk_max"; "dlnk"; "Mmin"; "Mmax";
     "dlog10m"; "mdef_model"; "hmf_model"; "bias_model"; "halo_profile_model_dm"; "halo_concentration_model_dm"; "halo_profile_model_sat";
     "halo_concentration_model_sat"; "transfer_model"; "transfer_params"; "growth_model"; "growth_params"; "norm_cen"; "norm_sat"; "eta_cen";
     "eta_sat"; "overdensity"; "delta_c"; "one_halo_ktrunc"; "two_halo_ktrunc"; "omega_c"; "omega_b"; "h0"; "n_s"; "sigma_8"; "m_nu"; "w0";
     "wa"; "tcmb"; "log10T_AGN"; "mb"].
  Lemma base_names b kw : read_kwargs table missing wrong m b = Ok kw -> map fst kw = base_keys.
  Proof. unfold read_kwargs. intros H. inv_binds H. injection H as <-. reflexivity. Qed.
  Lemma nl_names b kw : read_nl table missing m b = Ok kw -> map fst kw = set_for_nonlinear.
  Proof. unfold read_nl. intros H. inv_binds H. injection H as <-. reflexivity. Qed.
  Lemma align_names b kw : alignment c = true -> read_align table wrong m b = Ok kw ->
    map fst kw = ["one_halo_ktrunc_ia"; "two_halo_ktrunc_ia"; "t_eff"].
  Proof.
    unfold read_align. intros A H. change (q_alignment (m_request m) = true) in A. rewrite A in H. inv_binds H. injection H as <-. reflexivity.
  Qed.
  Lemma galaxy_names pp hp hs : map fst (galaxy_kwargs table m pp hp hs) = set_for_galaxies.
  Proof. reflexivity. Qed.
  Lemma mode_true k : mode_is c k = true <-> g_mode c = Some k.
  Proof. unfold mode_is. destruct (g_mode c) as [x|]; [|split; intros H; discriminate H]. destruct (String.eqb_spec x k) as [->|N]; split; congruence. Qed.
  Lemma orb_dec a b : (if (a || b)%bool then True else False) <-> (a = true \/ b = true).
  Proof. destruct a, b; cbn; intuition congruence. Qed.
  Lemma full_names b base beta nl hod al : shaped X c b base beta nl hod al ->
    NoDup (map fst (x_full X base beta nl hod al)) /\ forall n, In n (map fst (x_full X base beta nl hod al)) <-> passed c n.
  Proof.
    intros (Hb & Hbeta & Hnl & Hh & Ha). cbn [x_read_base X] in Hb. cbn [x_base X] in base.
    change (bind (read_kwargs table missing wrong m b) (fun kw => bind (read_align table wrong m b) (fun al => Ok (kw, al))) = Ok base) in Hb.
    destruct (read_kwargs table missing wrong m b) as [kw|] eqn:E; [cbn [bind] in Hb|discriminate Hb].
    destruct (read_align table wrong m b) as [ka|] eqn:E0; [cbn [bind] in Hb|discriminate Hb]. injection Hb as <-.
    pose proof (base_names _ _ E) as K. cbn [x_full X fst snd]. cbv zeta.
    assert (NK : NoDup (map fst kw)) by (rewrite K; apply NoDup_b; reflexivity).
    assert (IK : forall n, In n (map fst kw) <-> In n always_set) by (rewrite K; apply subset_eq; reflexivity).
    set (kw1 := match beta with Some t => dupdate kw [("beta_nl", KBeta table t)] | None => kw end).
    assert (N1 : NoDup (map fst kw1)) by (unfold kw1; destruct beta; [apply dupdate_nodup|]; exact NK).
    assert (I1 : forall n, In n (map fst kw1) <-> In n always_set \/ (g_mode c = Some "bnl" /\ n = "beta_nl")).
    { intros n. unfold kw1. pose proof (mode_true "bnl") as MT. destruct (mode_is c "bnl").
      - destruct Hbeta as (t & ->). rewrite dupdate_keys, IK. cbn [map fst In]. assert (g_mode c = Some "bnl") by (apply MT; reflexivity).
        split; [intros [[Q|[]]|Q]; [right; split; congruence|tauto]|intros [Q|[_ ->]]; tauto].
      - subst beta. rewrite IK. split; [tauto|]. intros [Q|[Q _]]; [exact Q|]. apply MT in Q. discriminate Q. }
    set (kw2 := match nl with Some d => dupdate kw1 d | None => kw1 end).
    assert (N2 : NoDup (map fst kw2)) by (unfold kw2; destruct nl; [apply dupdate_nodup|]; exact N1).
    assert (I2 : forall n, In n (map fst kw2) <-> In n (map fst kw1) \/ ((g_response c = true \/ g_mode c = Some "fortuna") /\ In n set_for_nonlinear)).
    { intros n. unfold kw2. pose proof (mode_true "fortuna") as MT. pose proof (orb_dec (g_response c) (mode_is c "fortuna")) as O.
      destruct (g_response c || mode_is c "fortuna")%bool.
      - destruct Hnl as (d & Ed & ->). change (read_nl table missing m b = Ok d) in Ed. rewrite dupdate_keys, (nl_names _ _ Ed). rewrite <- MT. tauto.
      - subst nl. rewrite <- MT. tauto. }
    set (kw3 := match hod with Some (pp, hp, hs) => dupdate kw2 (galaxy_kwargs table m pp hp hs) | None => kw2 end).
    assert (N3 : NoDup (map fst kw3)) by (unfold kw3; destruct hod as [[[]]|]; [apply dupdate_nodup|]; exact N2).
    assert (I3 : forall n, In n (map fst kw3) <-> In n (map fst kw2) \/ ((galaxy c = true \/ alignment c = true) /\ In n set_for_galaxies)).
    { intros n. unfold kw3. pose proof (orb_dec (galaxy c) (alignment c)) as O. destruct (galaxy c || alignment c)%bool.
      - destruct Hh as (pp & hp & _ & _ & ->). rewrite dupdate_keys, galaxy_names. tauto.
      - subst hod. tauto. }
    assert (I4 : forall n, In n (map fst match al with Some d => dupdate kw3 (("align_params", KAlign table d) :: ka) | None => kw3 end) <->
      In n (map fst kw3) \/ (alignment c = true /\ In n set_for_alignment)).
    { intros n. destruct (alignment c) eqn:A.
      - destruct Ha as (d & _ & ->). rewrite dupdate_keys. cbn [map fst]. rewrite (align_names _ _ A E0). unfold set_for_alignment. tauto.
      - subst al. intuition congruence. }
    split; [destruct al; [apply dupdate_nodup|]; exact N3|].
    intros n. refine (iff_trans (I4 n) _). rewrite I3, I2, I1. unfold passed. tauto.
  Qed.

  (** ** Histories *)
  Definition agree (o1 o2 : store table) : Prop := forall n, ~ passed c n -> o1 n = o2 n.
  Lemma call_frame b : fr X agree (execute X c b).
  Proof.
    apply frame; [intros o n _; reflexivity|intros a b' d H1 H2 n Hn; rewrite (H1 n Hn); apply H2, Hn| |].
    - intros base beta nl hod al Sh o n Hn. destruct (full_names b base beta nl hod al Sh) as [_ I]. symmetry. change (fst (update_all table S o (x_full X base beta nl hod al)) n = o n). rewrite update_store. apply set_frame. rewrite I. exact Hn.
    - intros A o n Hn. symmetry. change (fst (update_all table S o (x_hod X (g_ia_1 c))) n = o n). rewrite update_store. apply set_frame. cbn. intros [E|[]]. apply Hn. subst n. unfold passed. right. right. right. left.
      split; [right; exact A|]. cbn. tauto.
  Qed.
  Lemma calls_frame bs : forall st, agree (p_power X st) (p_power X (calls table missing wrong S m bs st)).
  Proof.
    induction bs as [|b bs IH]; intros st; [intros n _; reflexivity|]. cbn [calls]. intros n Hn.
    exact (eq_trans (call_frame b (st, []) n Hn) (IH _ n Hn)).
  Qed.
  Lemma bnl_one b st1 st2 lg : g_update_bnl c = 1%nat -> snd (bnl_step X c b (st1, lg)) = snd (bnl_step X c b (st2, lg)).
  Proof.
    intros U. unfold bnl_step, bindM, get. rewrite U. cbn [Nat.eqb fst snd Nat.modulo Nat.divmod]. unfold lift, put, ret.
    replace (Nat.eqb (p_calls X st1 mod 1) 0) with true by (rewrite Nat.mod_1_r; reflexivity).
    replace (Nat.eqb (p_calls X st2 mod 1) 0) with true by (rewrite Nat.mod_1_r; reflexivity).
    destruct (x_compute_bnl X b); reflexivity.
  Qed.
  Theorem no_memory bs b : g_mode c <> Some "bnl" \/ g_update_bnl c = 1%nat ->
    let r := execute X c b (calls table missing wrong S m bs (start table missing wrong S m), []) in
    let r0 := execute X c b (start table missing wrong S m, []) in
    snd r = snd r0 /\ snd (fst r) = snd (fst r0) /\ (snd r = Ok tt -> p_power X (fst (fst r)) = p_power X (fst (fst r0))).
  Proof.
    intros B. cbv zeta.
    set (st := calls table missing wrong S m bs (start table missing wrong S m)).
    assert (A : agree (p_power X st) (p_power X (start table missing wrong S m))).
    { intros n Hn. symmetry. apply (calls_frame bs (start table missing wrong S m) n Hn). }
    destruct (history_free' X c b st (start table missing wrong S m) []) as (R1 & R2 & R3).
    - intros E. destruct B as [B|B]; [apply mode_true in E; contradiction|]. apply bnl_one, B.
    - intros base beta nl hod al Sh. destruct (full_names b base beta nl hod al Sh) as [N I]. apply update_same; [exact N|].
      intros n Hn. apply A. rewrite <- I. exact Hn.
    - split; [exact R1|]. split; [exact R2|]. intros E. exact (R3 tt E).
  Qed.
  (** Two histories that leave the same table and count. *)
  Lemma bnl_same b st1 st2 lg : p_calls X st1 = p_calls X st2 -> p_cached X st1 = p_cached X st2 ->
    snd (bnl_step X c b (st1, lg)) = snd (bnl_step X c b (st2, lg)).
  Proof.
    intros E1 E2. destruct st1 as [n1 t1 o1], st2 as [n2 t2 o2]. cbn [p_calls p_cached] in E1, E2. subst n2 t2.
    unfold bnl_step, bindM, get, lift, put, ret. cbn [fst snd p_calls p_cached].
    destruct (Nat.eqb (g_update_bnl c) 0); [destruct t1; reflexivity|]. destruct (Nat.eqb (n1 mod g_update_bnl c) 0).
    - destruct (x_compute_bnl X b); reflexivity.
    - destruct t1; reflexivity.
  Qed.
  Theorem same_table bs1 bs2 b :
    let st1 := calls table missing wrong S m bs1 (start table missing wrong S m) in
    let st2 := calls table missing wrong S m bs2 (start table missing wrong S m) in
    p_calls X st1 = p_calls X st2 -> p_cached X st1 = p_cached X st2 ->
    let r1 := execute X c b (st1, []) in let r2 := execute X c b (st2, []) in
    snd r1 = snd r2 /\ snd (fst r1) = snd (fst r2) /\ (snd r1 = Ok tt -> p_power X (fst (fst r1)) = p_power X (fst (fst r2))).
  Proof.
    intros st1 st2 E1 E2. cbv zeta.
    destruct (history_free' X c b st1 st2 []) as (R1 & R2 & R3).
    - intros _. apply bnl_same; assumption.
    - intros base beta nl hod al Sh. destruct (full_names b base beta nl hod al Sh) as [N I]. apply update_same; [exact N|].
      intros n Hn. rewrite I in Hn.
      etransitivity; [symmetry; apply (calls_frame bs1 (start table missing wrong S m) n Hn)|apply (calls_frame bs2 (start table missing wrong S m) n Hn)].
    - split; [exact R1|]. split; [exact R2|]. intros E. exact (R3 tt E).
  Qed.
  Theorem out_of_reach bs n : ~ passed c n -> p_power X (calls table missing wrong S m bs (start table missing wrong S m)) n = s_default table S n.
  Proof. intros Hn. symmetry. exact (calls_frame bs (start table missing wrong S m) n Hn). Qed.
End Module.
