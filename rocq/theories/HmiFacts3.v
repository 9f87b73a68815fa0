(** The redshift loop of _hmf_generator. *)
From Verif Require Import Base Quad HmiModel HmiSpec.
Open Scope R_scope.

Lemma same_keys_refl d : NoDup (map fst d) -> same_keys d d.
Proof. split; [reflexivity|assumption]. Qed.

(** *** Both dictionary semantics satisfy the law *)
Lemma dget_in d k v : dget d k = Some v -> In k (map fst d).
Proof.
  induction d as [|[k' v'] d IH]; cbn; [discriminate|].
  destruct (String.eqb_spec k k') as [->|N]; [left; reflexivity|]. intros E. right. apply IH, E.
Qed.
Lemma dget_none d k : dget d k = None <-> ~ In k (map fst d).
Proof.
  induction d as [|[k' v'] d IH]; cbn; [split; auto|].
  destruct (String.eqb_spec k k') as [->|N]; split; intros E; try discriminate.
  - exfalso. apply E. left. reflexivity.
  - intros [Q|Q]; [congruence|]. apply IH in E. contradiction.
  - apply IH. intros Q. apply E. right. exact Q.
Qed.
Lemma dget_app d1 d2 k : dget (d1 ++ d2) k = match dget d1 k with Some v => Some v | None => dget d2 k end.
Proof.
  induction d1 as [|[k' v'] d IH]; cbn; [reflexivity|]. destruct (String.eqb k k'); [reflexivity|exact IH].
Qed.

Lemma replace_law : setting_law dset_replace.
Proof. split; [|split]; unfold dset_replace; auto. Qed.

(** Replacing the values of the entries of [d] by those of [n]. *)
Definition revalue (n d : dict) : dict :=
  map (fun kv => match dget n (fst kv) with Some v => (fst kv, v) | None => kv end) d.

Lemma revalue_keys n d : map fst (revalue n d) = map fst d.
Proof.
  unfold revalue. rewrite map_map. apply map_ext. intros [k v]; cbn. destruct (dget n k); reflexivity.
Qed.

Lemma revalue_get n d k : dget (revalue n d) k =
  match dget d k with None => None | Some v => match dget n k with Some w => Some w | None => Some v end end.
Proof.
  induction d as [|[k' v'] d IH]; cbn; [reflexivity|].
  destruct (String.eqb_spec k k') as [->|N].
  - destruct (dget n k') eqn:E; cbn; rewrite String.eqb_refl; reflexivity.
  - destruct (dget n k') eqn:E; cbn; (destruct (String.eqb_spec k k'); [contradiction|exact IH]).
Qed.

(** With the keys of [n] in the same order, revaluing yields [n]. *)
Lemma revalue_same : forall d n, map fst d = map fst n -> NoDup (map fst n) -> revalue n d = n.
Proof.
  assert (G : forall d n m, map fst d = map fst n -> NoDup (map fst n) ->
    (forall k, In k (map fst n) -> dget m k = dget n k) -> revalue m d = n).
  { induction d as [|[k v] d IH]; intros [|[k' v'] n] m E ND Hm; cbn in *; try discriminate; [reflexivity|].
    injection E as <- E. inversion ND; subst.
    rewrite (Hm k) by (left; reflexivity). rewrite String.eqb_refl. f_equal.
    apply (IH n m E H2). intros k0 H0. rewrite (Hm k0) by (right; exact H0).
    destruct (String.eqb_spec k0 k) as [->|]; [contradiction|reflexivity]. }
  intros d n E ND. apply (G d n n E ND). reflexivity.
Qed.

Definition fresh (o n : dict) : dict :=
  filter (fun kv => match dget o (fst kv) with Some _ => false | None => true end) n.

Lemma fresh_keys o : forall n1 n2, map fst n1 = map fst n2 -> map fst (fresh o n1) = map fst (fresh o n2).
Proof.
  induction n1 as [|[k v] n1 IH]; intros [|[k' v'] n2] E; cbn in *; try discriminate; [reflexivity|].
  injection E as <- E. destruct (dget o k); cbn; [apply IH, E|f_equal; apply IH, E].
Qed.
Lemma fresh_nil o n : (forall k, In k (map fst n) -> In k (map fst o)) -> fresh o n = [].
Proof.
  induction n as [|[k v] n IH]; intros E; cbn; [reflexivity|].
  destruct (dget o k) eqn:G.
  - apply IH. intros k0 H0. apply E. right. exact H0.
  - exfalso. apply (proj1 (dget_none o k) G). apply E. left. reflexivity.
Qed.
Lemma fresh_get o n k : dget (fresh o n) k = match dget o k with Some _ => None | None => dget n k end.
Proof.
  induction n as [|[k' v'] n IH]; cbn; [destruct (dget o k); reflexivity|].
  fold (fresh o n). destruct (dget o k') eqn:G; cbn; try fold (fresh o n).
  - rewrite IH. destruct (String.eqb_spec k k') as [->|N]; [rewrite G; reflexivity|reflexivity].
  - destruct (String.eqb_spec k k') as [->|N]; [rewrite G; reflexivity|exact IH].
Qed.
Lemma fresh_in o n k : In k (map fst (fresh o n)) -> In k (map fst n) /\ ~ In k (map fst o).
Proof.
  unfold fresh. rewrite in_map_iff. intros [[k' v] [<- H]]. apply filter_In in H as [H1 H2]. cbn in *.
  split; [apply in_map_iff; exists (k', v); auto|]. apply dget_none. destruct (dget o k'); [discriminate|reflexivity].
Qed.

Lemma merge_eq o n : dset_merge o n = (revalue n o ++ fresh o n)%list.
Proof. reflexivity. Qed.

Lemma revalue_ext m n d : (forall k, In k (map fst d) -> dget m k = dget n k) -> revalue m d = revalue n d.
Proof.
  intros E. unfold revalue. apply map_ext_in. intros [k v] H. cbn.
  rewrite (E k); [reflexivity|]. apply in_map_iff. exists (k, v). auto.
Qed.

Lemma NoDup_filter_keys o n : NoDup (map fst n) -> NoDup (map fst (fresh o n)).
Proof.
  induction n as [|[k v] n IH]; cbn; intros ND; [constructor|]. inversion ND; subst.
  destruct (dget o k); [apply IH; assumption|]. cbn. constructor; [|apply IH; assumption].
  intros H. apply fresh_in in H as [H _]. contradiction.
Qed.

Lemma merge_law : setting_law dset_merge.
Proof.
  split; [|split].
  - intros o n [E ND]. rewrite merge_eq. rewrite fresh_nil, app_nil_r by (intros k; rewrite E; auto).
    apply revalue_same; [exact E|]. rewrite <- E. exact ND.
  - intros o n1 n2 [E ND]. rewrite !merge_eq.
    assert (F : fresh (revalue n1 o ++ fresh o n1) n2 = []).
    { apply fresh_nil. intros k Hk. rewrite map_app, revalue_keys, in_app_iff.
      destruct (dget o k) eqn:G; [left; eapply dget_in; exact G|right].
      apply dget_none in G. rewrite <- E in Hk. apply in_map_iff in Hk as [[k' v] [<- Hk]].
      apply in_map_iff. exists (k', v). split; [reflexivity|]. apply filter_In. split; [exact Hk|].
      cbn in *. destruct (dget o k') eqn:G2; [|reflexivity]. apply dget_in in G2. contradiction. }
    rewrite F, app_nil_r. unfold revalue at 1. rewrite map_app. f_equal.
    + fold (revalue n2 (revalue n1 o)). unfold revalue. rewrite map_map. apply map_ext. intros [k v]. cbn.
      destruct (dget n1 k) eqn:G1; cbn; [|reflexivity].
      destruct (dget n2 k) eqn:G2; [reflexivity|]. apply dget_in in G1. rewrite E in G1.
      apply dget_none in G2. contradiction.
    + fold (revalue n2 (fresh o n1)). rewrite (revalue_ext n2 (fresh o n2)).
      * apply revalue_same; [apply fresh_keys, E|]. apply NoDup_filter_keys. rewrite <- E. exact ND.
      * intros k Hk. rewrite fresh_get. destruct (dget o k) eqn:G; [|reflexivity].
        apply fresh_in in Hk as [_ Hk]. apply dget_in in G. contradiction.
  - intros o n k v ND G. rewrite merge_eq, dget_app, revalue_get, fresh_get, G.
    destruct (dget o k); reflexivity.
Qed.

(** *** Broadcasting *)
Lemma broadcast_ok v nz : (0 < nz)%nat -> shape_ok v nz ->
  exists w, broadcast v nz = Ok w /\ List.length w = nz /\ forall i, (i < nz)%nat -> nth i w 0 = entry v i.
Proof.
  intros Hn [E|E]; unfold broadcast, entry.
  - rewrite E. cbn. exists (repeat (nth 0 v 0) nz). split; [reflexivity|]. split; [apply repeat_length|].
    intros i Hi. rewrite nth_indep with (d' := nth 0 v 0) by (rewrite repeat_length; exact Hi). apply nth_repeat.
  - rewrite E. destruct (Nat.eqb_spec nz 1) as [->|N].
    + exists (repeat (nth 0 v 0) 1). split; [reflexivity|]. split; [reflexivity|].
      intros i Hi. replace i with 0%nat by lia. reflexivity.
    + rewrite Nat.eqb_refl. exists v. auto.
Qed.

Lemma broadcast_bad v nz : (exists e, broadcast v nz = Err e) <->
  List.length v <> 1%nat /\ List.length v <> nz /\ nz <> 1%nat.
Proof.
  unfold broadcast.
  destruct (Nat.eqb_spec (List.length v) 1) as [E1|E1]; [split; [intros [e E]; discriminate|tauto]|].
  destruct (Nat.eqb_spec (List.length v) nz) as [E2|E2]; [split; [intros [e E]; discriminate|tauto]|].
  destruct (Nat.eqb_spec nz 1) as [E3|E3]; [split; [intros [e E]; discriminate|tauto]|].
  split; [tauto|]. intros _. eexists. reflexivity.
Qed.

(** *** Loops *)
Lemma loop2_length step : forall zs x ns, List.length ns = List.length zs ->
  List.length (loop2 step x zs ns) = List.length zs.
Proof.
  induction zs as [|z zs IH]; intros x [|n ns] E; cbn in *; try discriminate; [reflexivity|].
  f_equal. apply IH. lia.
Qed.
Lemma loop3_length step : forall zs x es ns, List.length es = List.length zs -> List.length ns = List.length zs ->
  List.length (loop3 step x zs es ns) = List.length zs.
Proof.
  induction zs as [|z zs IH]; intros x [|e es] [|n ns] E1 E2; cbn in *; try discriminate; [reflexivity|].
  f_equal. apply IH; lia.
Qed.

(** If a step after a step is the step alone, the loop has no memory. *)
Lemma loop2_nth step (inv : hpar -> Prop) d :
  (forall x z n, inv x -> inv (step x z n)) ->
  (forall x z n z' n', inv x -> step (step x z n) z' n' = step x z' n') ->
  forall zs x ns i, List.length ns = List.length zs -> (i < List.length zs)%nat -> inv x ->
  nth i (loop2 step x zs ns) d = step x (nth i zs 0) (nth i ns 0).
Proof.
  intros Hinv Hs. induction zs as [|z zs IH]; intros x [|n ns] i E Hi I; cbn in *; try discriminate; [lia|].
  destruct i as [|i]; [reflexivity|]. rewrite IH; [|lia|lia|apply Hinv, I]. apply Hs, I.
Qed.
Lemma loop3_nth step (inv : hpar -> Prop) d :
  (forall x z e n, inv x -> inv (step x z e n)) ->
  (forall x z e n z' e' n', inv x -> step (step x z e n) z' e' n' = step x z' e' n') ->
  forall zs x es ns i, List.length es = List.length zs -> List.length ns = List.length zs ->
  (i < List.length zs)%nat -> inv x ->
  nth i (loop3 step x zs es ns) d = step x (nth i zs 0) (nth i es 0) (nth i ns 0).
Proof.
  intros Hinv Hs. induction zs as [|z zs IH]; intros x [|e es] [|n ns] i E1 E2 Hi I; cbn in *; try discriminate; [lia|].
  destruct i as [|i]; [reflexivity|]. rewrite IH; [|lia|lia|lia|apply Hinv, I]. apply Hs, I.
Qed.

Section Gen.
  Variable H : hmi.
  Variable dset : dict -> dict -> dict.
  Variable mset : string -> string -> dict -> dict.
  Variable sigma8 : hpar -> R.
  Variable prof0 : dict.
  Hypothesis HL : setting_law dset.
  Hypothesis HM : model_law mset.
  Hypothesis H8 : sigma8_law sigma8.

  Lemma mdef_keys z z' : same_keys (mdef_params H z) (mdef_params H z').
  Proof.
    unfold mdef_params. destruct (is_mead _); [|destruct (String.eqb _ _)]; cbn; split; try reflexivity;
      repeat constructor; cbn; tauto.
  Qed.
  Lemma mdef_set z z' : dset (mdef_params H z) (mdef_params H z') = mdef_params H z'.
  Proof. apply HL, mdef_keys. Qed.
  Lemma one_key k (a b : R) : same_keys [(k, a)] [(k, b)].
  Proof. split; [reflexivity|]. repeat constructor. cbn. tauto. Qed.
  Lemma two_keys (a b a' b' : R) :
    same_keys [("norm"%string, a); ("K"%string, b)] [("norm"%string, a'); ("K"%string, b')].
  Proof. split; [reflexivity|]. repeat constructor; cbn; intuition discriminate. Qed.

  (** The mass definition parameters are those of some redshift. *)
  Let inv (x : hpar) : Prop := exists z, hp_mdef_par x = mdef_params H z.

  Lemma upd_z_inv z x : inv x -> hp_mdef_par (upd_z dset z (mdef_params H z) (delta_c_mod H z) x) = mdef_params H z.
  Proof. intros [z0 E]. cbn. rewrite E. apply mdef_set. Qed.

  Ltac seteq := repeat match goal with
    | |- context [dset (dset ?o ?a) ?b] =>
        first [rewrite (proj1 (proj2 HL) o a b (one_key _ _ _)) | rewrite (proj1 (proj2 HL) o a b (two_keys _ _ _ _))]
    end.

  Lemma cen_mead_inv x z n : inv x -> inv (cen_mead H dset sigma8 x z n).
  Proof. intros I. exists z. unfold cen_mead. cbn [upd_par hp_mdef_par]. apply upd_z_inv, I. Qed.
  Lemma sat_mead_inv x z n : inv x -> inv (sat_mead H dset mset sigma8 x z n).
  Proof. intros I. exists z. unfold sat_mead. cbn [upd_par upd_models hp_mdef_par]. apply upd_z_inv, I. Qed.
  Lemma cen_plain_inv x z e n : inv x -> inv (cen_plain H dset x z e n).
  Proof. intros I. exists z. unfold cen_plain. cbn [upd_par hp_mdef_par]. apply upd_z_inv, I. Qed.
  Lemma sat_plain_inv x z e n : inv x -> inv (sat_plain H dset mset x z e n).
  Proof. intros I. exists z. unfold sat_plain. cbn [upd_par upd_models hp_mdef_par]. apply upd_z_inv, I. Qed.

  Lemma cen_mead_twice x z n z' n' : inv x ->
    cen_mead H dset sigma8 (cen_mead H dset sigma8 x z n) z' n' = cen_mead H dset sigma8 x z' n'.
  Proof.
    intros [z0 E]. unfold cen_mead.
    set (x1 := upd_z dset z' _ _ (upd_par _ _ _ _)). set (x2 := upd_z dset z' _ _ x).
    assert (E8 : sigma8 x1 = sigma8 x2).
    { apply H8; try reflexivity. unfold x1, x2. cbn. rewrite E, mdef_set, !mdef_set. reflexivity. }
    rewrite E8. unfold upd_par, x1, x2. cbn. rewrite E, !mdef_set.
    rewrite (proj1 (proj2 HL) _ _ _ (one_key "eta_bloat" _ _)), (proj1 (proj2 HL) _ _ _ (two_keys _ _ _ _)).
    reflexivity.
  Qed.

  Lemma sat_mead_twice x z n z' n' : inv x ->
    sat_mead H dset mset sigma8 (sat_mead H dset mset sigma8 x z n) z' n' = sat_mead H dset mset sigma8 x z' n'.
  Proof.
    intros [z0 E]. unfold sat_mead.
    set (x1 := upd_models mset _ _ (upd_z dset z' _ _ (upd_par _ _ _ _))).
    set (x2 := upd_models mset _ _ (upd_z dset z' _ _ x)).
    assert (E8 : sigma8 x1 = sigma8 x2).
    { apply H8; try reflexivity. unfold x1, x2. cbn. rewrite E, mdef_set, !mdef_set. reflexivity. }
    rewrite E8. unfold upd_par, x1, x2. cbn. rewrite E, !mdef_set, !HM.
    rewrite (proj1 (proj2 HL) _ _ _ (one_key "eta_bloat" _ _)), (proj1 (proj2 HL) _ _ _ (two_keys _ _ _ _)).
    reflexivity.
  Qed.

  Lemma cen_plain_twice x z e n z' e' n' : inv x ->
    cen_plain H dset (cen_plain H dset x z e n) z' e' n' = cen_plain H dset x z' e' n'.
  Proof.
    intros [z0 E]. unfold cen_plain, upd_par, upd_z. cbn. rewrite E, !mdef_set.
    rewrite (proj1 (proj2 HL) _ _ _ (one_key "eta_bloat" _ _)), (proj1 (proj2 HL) _ _ _ (one_key "norm" _ _)).
    reflexivity.
  Qed.
  Lemma sat_plain_twice x z e n z' e' n' : inv x ->
    sat_plain H dset mset (sat_plain H dset mset x z e n) z' e' n' = sat_plain H dset mset x z' e' n'.
  Proof.
    intros [z0 E]. unfold sat_plain, upd_par, upd_z, upd_models. cbn. rewrite E, !mdef_set, !HM.
    rewrite (proj1 (proj2 HL) _ _ _ (one_key "eta_bloat" _ _)), (proj1 (proj2 HL) _ _ _ (one_key "norm" _ _)).
    reflexivity.
  Qed.

  (** The first model, with the mass definition of redshift [z]. *)
  Definition start (z : R) : hpar :=
    {| hp_z := 0; hp_mdef := mdef_mod H; hp_mdef_par := mdef_params H z; hp_delta_c := delta_c_mod H z;
       hp_hmf := hmf_mod H; hp_bias := bias_mod H; hp_noconv := disable_mass_conversion H;
       hp_prof := hi_prof_dm H; hp_prof_par := prof0; hp_conc := conc_mod_dm H; hp_conc_par := [] |}.

  Lemma start_inv z : inv (start z). Proof. exists z. reflexivity. Qed.

  (** The starting redshift does not matter. *)
  Lemma cen_mead_start z0 z0' z n : cen_mead H dset sigma8 (start z0) z n = cen_mead H dset sigma8 (start z0') z n.
  Proof.
    unfold cen_mead. set (x1 := upd_z _ _ _ _ (start z0)). set (x2 := upd_z _ _ _ _ (start z0')).
    assert (E : x1 = x2) by (unfold x1, x2, upd_z, start; cbn; rewrite !mdef_set; reflexivity).
    rewrite E. reflexivity.
  Qed.
  Lemma sat_mead_start z0 z0' z n : sat_mead H dset mset sigma8 (start z0) z n = sat_mead H dset mset sigma8 (start z0') z n.
  Proof.
    unfold sat_mead. set (x1 := upd_z _ _ _ _ (start z0)). set (x2 := upd_z _ _ _ _ (start z0')).
    assert (E : x1 = x2) by (unfold x1, x2, upd_z, start; cbn; rewrite !mdef_set; reflexivity).
    rewrite E. reflexivity.
  Qed.
  Lemma cen_plain_start z0 z0' z e n : cen_plain H dset (start z0) z e n = cen_plain H dset (start z0') z e n.
  Proof. unfold cen_plain, upd_par, upd_z, start; cbn; rewrite !mdef_set; reflexivity. Qed.
  Lemma sat_plain_start z0 z0' z e n : sat_plain H dset mset (start z0) z e n = sat_plain H dset mset (start z0') z e n.
  Proof. unfold sat_plain, upd_par, upd_models, upd_z, start; cbn; rewrite !mdef_set; reflexivity. Qed.

  (** Closed form of the generator. *)
  Definition cen_at (i : nat) : hpar :=
    let z := nth i (hi_z H) 0 in
    if is_mead (hi_ingr H) then cen_mead H dset sigma8 (start z) z (entry (hi_norm_cen H) i)
    else cen_plain H dset (start z) z (entry (hi_eta_cen H) i) (entry (hi_norm_cen H) i).
  Definition sat_at (i : nat) : hpar :=
    let z := nth i (hi_z H) 0 in
    if is_mead (hi_ingr H) then sat_mead H dset mset sigma8 (start z) z (entry (hi_norm_sat H) i)
    else sat_plain H dset mset (start z) z (entry (hi_eta_sat H) i) (entry (hi_norm_sat H) i).

  Lemma generator_closed : hi_z H <> [] -> shapes_ok H ->
    exists cs ss, hmf_generator H dset mset sigma8 prof0 = Ok (cs, ss) /\
      List.length cs = List.length (hi_z H) /\ List.length ss = List.length (hi_z H) /\
      forall i, (i < List.length (hi_z H))%nat ->
        nth_error cs i = Some (cen_at i) /\ nth_error ss i = Some (sat_at i).
  Proof.
    intros Hz (S1 & S2 & S3).
    assert (Hn : (0 < List.length (hi_z H))%nat) by (destruct (hi_z H); [congruence|cbn; lia]).
    unfold hmf_generator, x0. destruct (hi_z H) as [|z0 zs] eqn:Ez; [congruence|]. rewrite <- Ez in *.
    cbn [bind]. fold (start z0). unfold norm_c, norm_s, eta_c, eta_s, cen_at, sat_at.
    destruct (broadcast_ok _ _ Hn S1) as (nc & E1 & L1 & N1).
    destruct (broadcast_ok _ _ Hn S2) as (ns & E2 & L2 & N2).
    destruct (is_mead (hi_ingr H)) eqn:M.
    - rewrite E1, E2. cbn [bind]. eexists. eexists. split; [reflexivity|].
      split; [apply loop2_length, L1|]. split; [apply loop2_length, L2|].
      intros i Hi. split.
      + rewrite (nth_error_nth' _ (start z0)) by (rewrite loop2_length; [exact Hi|exact L1]).
        rewrite (loop2_nth _ inv _ cen_mead_inv cen_mead_twice); [|exact L1|exact Hi|apply start_inv].
        rewrite N1 by exact Hi. rewrite (cen_mead_start z0 (nth i (hi_z H) 0)). reflexivity.
      + rewrite (nth_error_nth' _ (start z0)) by (rewrite loop2_length; [exact Hi|exact L2]).
        rewrite (loop2_nth _ inv _ sat_mead_inv sat_mead_twice); [|exact L2|exact Hi|apply start_inv].
        rewrite N2 by exact Hi. rewrite (sat_mead_start z0 (nth i (hi_z H) 0)). reflexivity.
    - destruct (S3 eq_refl) as [S4 S5].
      destruct (broadcast_ok _ _ Hn S4) as (ec & E4 & L4 & N4).
      destruct (broadcast_ok _ _ Hn S5) as (es & E5 & L5 & N5).
      rewrite E1, E2, E4, E5. cbn [bind]. eexists. eexists. split; [reflexivity|].
      split; [apply loop3_length; assumption|]. split; [apply loop3_length; assumption|].
      intros i Hi. split.
      + rewrite (nth_error_nth' _ (start z0)) by (rewrite loop3_length; assumption).
        rewrite (loop3_nth _ inv _ cen_plain_inv cen_plain_twice); [|assumption|assumption|exact Hi|apply start_inv].
        rewrite N1, N4 by exact Hi. rewrite (cen_plain_start z0 (nth i (hi_z H) 0)). reflexivity.
      + rewrite (nth_error_nth' _ (start z0)) by (rewrite loop3_length; assumption).
        rewrite (loop3_nth _ inv _ sat_plain_inv sat_plain_twice); [|assumption|assumption|exact Hi|apply start_inv].
        rewrite N2, N5 by exact Hi. rewrite (sat_plain_start z0 (nth i (hi_z H) 0)). reflexivity.
  Qed.
End Gen.
