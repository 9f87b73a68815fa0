(** Masks, kept positions and the common shape of the cuts. *)
From Verif Require Import Base OptModel TpModel TpSpec.
From Coq Require Import ZArith List Sorting.Sorted.
Import ListNotations.

(** ** Results *)
Lemma bind_ok : forall {A B} (r : res A) (g : A -> res B) b,
  bind r g = Ok b -> exists a, r = Ok a /\ g a = Ok b.
Proof. intros A B [a | e] g b H; [now exists a | discriminate H]. Qed.

Lemma mapr_ok : forall {A B} (g : A -> res B) l l',
  mapr g l = Ok l' -> Forall2 (fun x y => g x = Ok y) l l'.
Proof.
  induction l as [| x l IH]; cbn; intros l' H.
  - injection H as <-. constructor.
  - apply bind_ok in H as (y & Hy & H). apply bind_ok in H as (ys & Hys & H). injection H as <-.
    constructor; auto.
Qed.

Lemma mapr_of : forall {A B} (g : A -> res B) l l',
  Forall2 (fun x y => g x = Ok y) l l' -> mapr g l = Ok l'.
Proof. induction 1 as [| x y l l' E _ IH]; cbn; [reflexivity | now rewrite E, IH]. Qed.

Lemma mapr_total : forall {A B} (g : A -> res B) l,
  (forall x, In x l -> exists y, g x = Ok y) -> exists l', mapr g l = Ok l'.
Proof.
  induction l as [| x l IH]; cbn; intro H; [eauto |].
  destruct (H x (or_introl eq_refl)) as (y & ->). destruct IH as (ys & ->); [auto |]. cbn. eauto.
Qed.

(** ** Masks *)
Lemma select_app : forall {A} m1 m2 (l1 l2 : list A),
  length m1 = length l1 -> select (m1 ++ m2) (l1 ++ l2) = select m1 l1 ++ select m2 l2.
Proof.
  induction m1 as [| b m1 IH]; intros m2 [| x l1] l2 H; cbn in *; try discriminate; auto.
  injection H as H. rewrite (IH m2 l1 l2 H). now destruct b.
Qed.

Lemma select_map : forall {A B} (g : A -> B) m l, select m (map g l) = map g (select m l).
Proof.
  induction m as [| b m IH]; intros [| x l]; cbn; auto. rewrite (IH l). now destruct b.
Qed.

Lemma select_combine : forall {A B} m (l1 : list A) (l2 : list B),
  length l1 = length l2 -> select m (combine l1 l2) = combine (select m l1) (select m l2).
Proof.
  induction m as [| b m IH]; intros [| x l1] [| y l2] H; cbn in *; try discriminate; auto.
  injection H as H. rewrite (IH l1 l2 H). now destruct b.
Qed.

Lemma select_ones : forall {A} (l : list A), select (ones (length l)) l = l.
Proof. unfold ones. induction l as [| x l IH]; cbn; [reflexivity | now rewrite IH]. Qed.

Lemma select_zeros : forall {A} (l : list A), select (zeros (length l)) l = [].
Proof. unfold zeros. induction l as [| x l IH]; cbn; auto. Qed.

Lemma select_length : forall {A B} m (l : list A) (l' : list B),
  length l = length l' -> length (select m l) = length (select m l').
Proof.
  induction m as [| b m IH]; intros [| x l] [| y l'] H; cbn in *; try discriminate; auto.
  injection H as H. destruct b; cbn; now rewrite (IH l l' H).
Qed.

Lemma select_in : forall {A} m (l : list A) x, In x (select m l) -> In x l.
Proof.
  induction m as [| b m IH]; intros [| y l] x; cbn; try tauto.
  destruct b; cbn; intuition eauto.
Qed.

Lemma kept_from_length : forall {A} m k (l : list A),
  length m = length l -> length (select m l) = length (kept_from k m).
Proof.
  induction m as [| b m IH]; intros k [| x l] H; cbn in *; try discriminate; auto.
  injection H as H. destruct b; cbn; now rewrite (IH (S k) l H).
Qed.

Lemma kept_from_picks : forall {A} m k (l : list A) pre,
  length pre = k -> length m = length l -> picks (kept_from k m) (pre ++ l) (select m l).
Proof.
  intros A m k l pre Hp H. split; [now apply kept_from_length |].
  revert k l pre Hp H. induction m as [| b m IH]; intros k [| x l] pre Hp H i j E; cbn in *; try discriminate.
  - destruct i; discriminate E.
  - injection H as H.
    assert (G : forall i j, nth_error (kept_from (S k) m) i = Some j ->
                exists y, nth_error (pre ++ x :: l) j = Some y /\ nth_error (select m l) i = Some y).
    { intros i' j' E'. specialize (IH (S k) l (pre ++ [x])). rewrite <- app_assoc in IH. cbn in IH.
      apply IH; auto. rewrite app_length; cbn; lia. }
    destruct b.
    + destruct i as [| i]; cbn in *.
      * injection E as <-. exists x. split; [| reflexivity].
        rewrite nth_error_app2 by lia. replace (k - length pre)%nat with 0%nat by lia. reflexivity.
      * now apply G.
    + now apply G.
Qed.

Lemma kept_picks : forall {A} m (l : list A), length m = length l -> picks (kept m) l (select m l).
Proof. intros A m l H. now apply (kept_from_picks m 0 l [] eq_refl). Qed.

Lemma kept_from_lb : forall m k j, In j (kept_from k m) -> (k <= j)%nat.
Proof.
  induction m as [| b m IH]; intros k j H; cbn in H; [easy |].
  destruct b; cbn in H; [destruct H as [-> | H]; [lia |] |]; apply IH in H; lia.
Qed.

Lemma kept_from_sorted : forall m k, StronglySorted lt (kept_from k m).
Proof.
  induction m as [| b m IH]; intro k; cbn; [constructor |].
  destruct b; [| apply IH]. constructor; [apply IH |].
  apply Forall_forall. intros j Hj. apply kept_from_lb in Hj. lia.
Qed.

Lemma kept_from_in : forall m k j, In (k + j)%nat (kept_from k m) <-> nth_error m j = Some true.
Proof.
  induction m as [| b m IH]; intros k j; cbn.
  - destruct j; cbn; split; [easy | discriminate | easy | discriminate].
  - destruct j as [| j]; cbn.
    + rewrite Nat.add_0_r. destruct b; cbn.
      * split; auto.
      * split; [intro H; apply kept_from_lb in H; lia | discriminate].
    + specialize (IH (S k) j). replace (S k + j)%nat with (k + S j)%nat in IH by lia.
      destruct b; cbn; rewrite <- IH; [| reflexivity].
      split; [intros [E | H]; [lia | exact H] | auto].
Qed.

Lemma kept_in : forall m j, In j (kept m) <-> nth_error m j = Some true.
Proof. intros m j. exact (kept_from_in m 0 j). Qed.

Lemma mask1_ok : forall {A} m (l l' : list A), mask1 m l = Ok l' -> length m = length l /\ l' = select m l.
Proof.
  unfold mask1. intros A m l l' H. destruct (Nat.eqb (length m) (length l)) eqn:E; [| discriminate H].
  apply Nat.eqb_eq in E. injection H as <-. auto.
Qed.
Lemma mask1_of : forall {A} m (l : list A), length m = length l -> mask1 m l = Ok (select m l).
Proof. unfold mask1. intros A m l H. now rewrite H, Nat.eqb_refl. Qed.

(** ** Spectra under a mask *)
Lemma sp_points_length : forall s, wf_sp s -> length (sp_points s) = length (sp_val s).
Proof.
  intros s [H1 H2 H3 H4 _ _]. unfold sp_points. rewrite map_length, !combine_length, H1, H2, H3, H4. lia.
Qed.

Lemma op_points_length : forall o, wf_op o ->
  length (op_points o) = length (concat (op_nobs o)) /\ sum_nat (op_nsample o) = length (concat (op_nobs o)).
Proof.
  intros [n ns nobs] [H _]. cbn in *. subst ns. unfold op_points; cbn. split.
  - generalize 0%nat. induction nobs as [| b t IH]; intro k; cbn; [reflexivity |].
    rewrite !app_length, IH. unfold bin_points. now rewrite map_length, seq_length.
  - induction nobs as [| b t IH]; cbn; [reflexivity |]. unfold sum_nat in *. cbn. rewrite IH, app_length. reflexivity.
Qed.

Definition cuts_sp (m : list bool) (s s' : spectrum) : Prop :=
  length m = length (sp_val s) /\ wf_sp s' /\ sp_name s' = sp_name s /\
  sp_points s' = select m (sp_points s) /\ sp_val s' = select m (sp_val s).

Lemma apply_mask_cuts : forall m s s', wf_sp s -> apply_mask m s = Ok s' -> cuts_sp m s s'.
Proof.
  intros m s s' W H. destruct W as [H1 H2 H3 H4 H5 H6]. unfold apply_mask in H.
  apply bind_ok in H as (b1 & E1 & H). apply mask1_ok in E1 as (L & ->).
  apply bind_ok in H as (b2 & E2 & H). apply mask1_ok in E2 as (_ & ->).
  apply bind_ok in H as (ab & E3 & H). apply mask1_ok in E3 as (_ & ->).
  apply bind_ok in H as (an & E4 & H). apply mask1_ok in E4 as (_ & ->).
  apply bind_ok in H as (v & E5 & H). apply mask1_ok in E5 as (Lv & ->).
  apply bind_ok in H as (e & E6 & H). injection H as <-.
  unfold cuts_sp. split; [exact Lv |]. split.
  { constructor; cbn.
    - now apply select_length. - now apply select_length. - now apply select_length. - now apply select_length.
    - intros e' ->. destruct (sp_err s) as [e0 |]; [| discriminate E6].
      apply bind_ok in E6 as (e1 & E7 & E8). injection E8 as <-. apply mask1_ok in E7 as (_ & ->).
      apply select_length. now apply H5.
    - intros p Hp. rewrite <- select_combine in Hp by congruence. apply select_in in Hp. now apply H6. }
  split; [reflexivity |]. split; [| reflexivity].
  unfold sp_points; cbn. rewrite select_map. f_equal.
  rewrite !select_combine; [reflexivity | rewrite ?combine_length; lia ..].
Qed.

Lemma apply_mask_total : forall m s, wf_sp s -> length m = length (sp_val s) -> exists s', apply_mask m s = Ok s'.
Proof.
  intros m s [H1 H2 H3 H4 H5 _] L. unfold apply_mask.
  rewrite (mask1_of m (sp_b1 s)) by congruence. cbn.
  rewrite (mask1_of m (sp_b2 s)) by congruence. cbn.
  rewrite (mask1_of m (sp_abin s)) by congruence. cbn.
  rewrite (mask1_of m (sp_ang s)) by congruence. cbn.
  rewrite (mask1_of m (sp_val s)) by congruence. cbn.
  destruct (sp_err s) as [e |]; cbn; [| eauto].
  rewrite (mask1_of m e) by (rewrite (H5 e eq_refl); congruence). cbn. eauto.
Qed.

Lemma masked_cuts : forall m s q, wf_sp s -> masked m s = Ok q -> fst q = m /\ cuts_sp m s (snd q).
Proof.
  intros m s q W H. unfold masked in H. apply bind_ok in H as (s' & E & H). injection H as <-. cbn.
  split; [reflexivity | now apply apply_mask_cuts].
Qed.
Lemma masked_total : forall m s, wf_sp s -> length m = length (sp_val s) -> exists q, masked m s = Ok q.
Proof.
  intros m s W L. unfold masked. destruct (apply_mask_total m s W L) as (s' & ->). cbn. eauto.
Qed.
Lemma ones_cuts : forall s, wf_sp s -> cuts_sp (ones (length (sp_val s))) s s.
Proof.
  intros s W. unfold cuts_sp. split; [unfold ones; apply repeat_length |]. split; [exact W |]. split; [reflexivity |].
  split; [| now rewrite select_ones]. rewrite <- (sp_points_length s W). now rewrite select_ones.
Qed.

(** ** The common shape *)
Definition good_step (step : spectrum -> res (list bool * spectrum)) : Prop :=
  forall s q, wf_sp s -> step s = Ok q -> cuts_sp (fst q) s (snd q).

Lemma concat_select : forall sp (l : list (list bool * spectrum)),
  Forall2 (fun s q => cuts_sp (fst q) s (snd q)) sp l -> Forall wf_sp sp ->
  length (concat (map fst l)) = length (flat_map sp_points sp) /\
  length (flat_map sp_points sp) = length (flat_map sp_val sp) /\
  flat_map sp_points (map snd l) = select (concat (map fst l)) (flat_map sp_points sp) /\
  flat_map sp_val (map snd l) = select (concat (map fst l)) (flat_map sp_val sp).
Proof.
  induction 1 as [| s q sp l C _ IH]; intro W; cbn; [auto |].
  inversion W as [| ? ? Ws Wt]; subst. destruct (IH Wt) as (I1 & I2 & I3 & I4).
  destruct C as (C1 & _ & _ & C4 & C5). pose proof (sp_points_length s Ws) as Lp.
  rewrite !app_length, I1, I2, C1, Lp, C4, C5, I3, I4.
  rewrite !select_app by congruence. auto.
Qed.

Lemma obs_masks_spec : forall f, Forall wf_op (obs_list f) ->
  concat (obs_masks f) = ones (length (flat_map op_points (obs_list f))) /\
  length (flat_map op_points (obs_list f)) = length (flat_map (fun o => concat (op_nobs o)) (obs_list f)).
Proof.
  intros f. unfold obs_masks. induction 1 as [| o l W _ IH]; cbn; [auto |].
  destruct IH as (I1 & I2). destruct (op_points_length o W) as (L1 & L2).
  rewrite I1, L2, !app_length, <- L1, I2. split; [| lia].
  unfold ones. rewrite <- repeat_app. reflexivity.
Qed.

Lemma points_values : forall f, wf_file f -> length (points f) = length (values f).
Proof.
  intros f [W1 W2 _]. unfold points, values. rewrite !app_length.
  rewrite (proj2 (obs_masks_spec f W2)). f_equal.
  induction W1 as [| s l Ws _ IH]; cbn; [reflexivity |]. rewrite !app_length, IH. now rewrite sp_points_length.
Qed.

Lemma mask_mat_ok : forall mask m m', mask_mat mask m = Ok m' ->
  length mask = m_n m /\ m_n m' = length (kept mask) /\
  forall i j a b, nth_error (kept mask) i = Some a -> nth_error (kept mask) j = Some b -> m_at m' i j = m_at m a b.
Proof.
  unfold mask_mat. intros mask m m' H. destruct (Nat.eqb (length mask) (m_n m)) eqn:E; [| discriminate H].
  apply Nat.eqb_eq in E. injection H as <-. cbn. split; [exact E |]. split; [reflexivity |].
  intros i j a b Ha Hb. now rewrite (nth_error_nth _ _ 0%nat Ha), (nth_error_nth _ _ 0%nat Hb).
Qed.
Lemma mask_mat_of : forall mask m, length mask = m_n m -> exists m', mask_mat mask m = Ok m'.
Proof. unfold mask_mat. intros mask m H. rewrite H, Nat.eqb_refl. eauto. Qed.

(** A file put together from cut spectra and an untouched one-point part. *)
Lemma assembled : forall f sp' cov' info' masks,
  wf_file f ->
  length masks = length (flat_map sp_points (f_spectra f)) ->
  flat_map sp_points sp' = select masks (flat_map sp_points (f_spectra f)) ->
  flat_map sp_val sp' = select masks (flat_map sp_val (f_spectra f)) ->
  Forall wf_sp sp' ->
  match f_cov f, cov' with
  | None, None => True
  | Some m, Some m' => mask_mat (masks ++ ones (length (flat_map op_points (obs_list f)))) m = Ok m'
  | _, _ => False
  end ->
  let f' := mkFile sp' (f_nobs f) info' cov' in
  wf_file f' /\ cut_by (kept (masks ++ ones (length (flat_map op_points (obs_list f))))) f f'.
Proof.
  intros f sp' cov' info' masks W L Ep Ev Ws Hc f'.
  pose proof (points_values f W) as PV. destruct W as [W1 W2 W3].
  destruct (obs_masks_spec f W2) as (_ & OL).
  set (full := (masks ++ ones (length (flat_map op_points (obs_list f))))%list) in *.
  assert (Lf : length full = length (points f)).
  { unfold full, points, ones. rewrite !app_length, repeat_length, L. reflexivity. }
  assert (LV : length (flat_map sp_points (f_spectra f)) = length (flat_map sp_val (f_spectra f))).
  { unfold points, values in PV. rewrite !app_length in PV. lia. }
  assert (P' : points f' = select full (points f)).
  { unfold full, points. rewrite select_app by exact L. rewrite select_ones, <- Ep. reflexivity. }
  assert (V' : values f' = select full (values f)).
  { unfold full, values. rewrite select_app by congruence. rewrite OL, select_ones, <- Ev. reflexivity. }
  split.
  - constructor; cbn; [exact Ws | exact W2 |]. intros m Em. subst cov'.
    change (m_n m = length (points f') /\ f_nobs f <> None). rewrite P'.
    destruct (f_cov f) as [m0 |] eqn:E0; [| contradiction].
    apply mask_mat_ok in Hc as (_ & Hn & _). split; [| now apply (W3 m0)].
    rewrite Hn. symmetry. now apply (kept_from_length full 0).
  - constructor.
    + apply kept_from_sorted.
    + rewrite P'. now apply kept_picks.
    + rewrite V'. apply kept_picks. congruence.
    + cbn. destruct (f_cov f) as [m0 |], cov' as [m' |]; try contradiction; [| exact I].
      apply mask_mat_ok in Hc as (_ & Hn & Ha). auto.
Qed.

Lemma cut_with_spec : forall step f f',
  wf_file f -> good_step step -> cut_with step f = Ok f' ->
  exists l, mapr step (f_spectra f) = Ok l /\ wf_file f' /\
    length (concat (map fst l)) = length (flat_map sp_points (f_spectra f)) /\
    f_spectra f' = map snd l /\ f_nobs f' = f_nobs f /\
    cut_by (kept (concat (map fst l) ++ ones (length (flat_map op_points (obs_list f))))) f f'.
Proof.
  intros step f f' W G H. unfold cut_with in H. apply bind_ok in H as (l & El & H). exists l.
  split; [exact El |].
  assert (F2 : Forall2 (fun s q => cuts_sp (fst q) s (snd q)) (f_spectra f) l).
  { apply mapr_ok in El. pose proof (wf_spectra f W) as Ws. revert Ws.
    clear - El G. induction El as [| s q sp l E _ IH]; intro Ws; constructor.
    - inversion Ws; subst. now apply G.
    - apply IH. now inversion Ws. }
  destruct (concat_select _ _ F2 (wf_spectra f W)) as (C1 & C2 & C3 & C4).
  assert (Wl : Forall wf_sp (map snd l)).
  { clear - F2. induction F2 as [| s q sp l (_ & C & _) _ IH]; cbn; constructor; auto. }
  assert (EM : concat (map fst l ++ obs_masks f)
             = (concat (map fst l) ++ ones (length (flat_map op_points (obs_list f))))%list).
  { rewrite concat_app, (proj1 (obs_masks_spec f (wf_obs f W))). reflexivity. }
  destruct (f_cov f) as [m |] eqn:Ec.
  - (* with a covariance *)
    assert (NE : exists obs, f_nobs f = Some obs).
    { destruct (f_nobs f) as [o |] eqn:E; [eauto |]. exfalso. now apply (proj2 (wf_cov f W m Ec)). }
    destruct NE as (obs & En).
    destruct (map fst l ++ obs_masks f)%list as [| mk mks] eqn:EL.
    + (* no measurement at all: the file is unchanged *)
      assert (l = []) as -> by (destruct l; [reflexivity | discriminate EL]).
      cbn in *. inversion F2 as [E | ]; subst.
      injection H as <-.
      assert (ON : obs_list f = []).
      { unfold obs_masks in EL. destruct (obs_list f); [reflexivity | discriminate EL]. }
      pose proof (assembled f [] (Some m) (f_info f) []) as A. cbn in A. rewrite Ec, <- E, ON in A. cbn in A.
      assert (M0 : m_n m = 0%nat).
      { destruct (wf_cov f W m Ec) as (Hn & _). rewrite Hn. unfold points. now rewrite <- E, ON. }
      assert (W0 : wf_file (mkFile [] (f_nobs f) (f_info f) (Some m))).
      { constructor; cbn; [constructor | exact (wf_obs f W) |]. intros m0 [= <-].
        split; [| exact (proj2 (wf_cov f W m Ec))]. unfold points; cbn.
        change (obs_list (mkFile [] (f_nobs f) (f_info f) (Some m))) with (obs_list f). rewrite ON. exact M0. }
      assert (NO : obs_list (mkFile [] (f_nobs f) (f_info f) (Some m)) = []) by exact ON.
      split; [exact W0 |]. split; [reflexivity |]. split; [reflexivity |]. split; [reflexivity |].
      rewrite ON. cbn. constructor.
      * constructor.
      * unfold points. rewrite <- E, NO, ON. cbn. split; [reflexivity |]. intros [| ?] ? Q; discriminate Q.
      * unfold values. rewrite <- E, NO, ON. cbn. split; [reflexivity |]. intros [| ?] ? Q; discriminate Q.
      * rewrite Ec. cbn. split; [exact M0 |]. intros [| ?] ? ? ? Q; discriminate Q.
    + assert (HM' : mask_covmat (map fst l ++ obs_masks f) (mkFile (map snd l) (f_nobs f) (f_info f) (Some m)) = Ok f')
        by (rewrite EL; exact H).
      clear H. unfold mask_covmat in HM'. cbn [f_cov f_nobs f_spectra] in HM'. rewrite En in HM'.
      apply bind_ok in HM' as (m' & Em & Ef). injection Ef as <-. rewrite EL, EM in Em.
      destruct (assembled f (map snd l) (Some m')
                 (Some (new_covinfo (map sp_name (map snd l) ++ map op_name obs)
                   (map (fun s => length (sp_val s)) (map snd l) ++ map (fun o => sum_nat (op_nsample o)) obs) m'))
                 (concat (map fst l)) W C1 C3 C4 Wl) as (A1 & A2).
      { rewrite Ec. exact Em. }
      rewrite En in A1, A2. auto.
  - assert (f' = mkFile (map snd l) (f_nobs f) (f_info f) None) as ->.
    { destruct (map fst l ++ obs_masks f)%list; [now injection H as <- |].
      unfold mask_covmat in H. cbn in H. now injection H as <-. }
    destruct (assembled f (map snd l) None (f_info f) (concat (map fst l)) W C1 C3 C4 Wl) as (A1 & A2).
    { rewrite Ec. exact I. }
    auto.
Qed.

Lemma cut_with_total : forall step f,
  wf_file f -> good_step step ->
  (forall s, In s (f_spectra f) -> exists q, step s = Ok q) -> exists f', cut_with step f = Ok f'.
Proof.
  intros step f W G T. unfold cut_with.
  destruct (mapr_total step (f_spectra f) T) as (l & El). rewrite El. cbn [bind].
  destruct (f_cov f) as [m |] eqn:Ec.
  2: { destruct (map fst l ++ obs_masks f)%list; [eauto |]. unfold mask_covmat. cbn. eauto. }
  assert (F2 : Forall2 (fun s q => cuts_sp (fst q) s (snd q)) (f_spectra f) l).
  { apply mapr_ok in El. pose proof (wf_spectra f W) as Ws. revert Ws.
    clear - El G. induction El as [| s q sp l E _ IH]; intro Ws; constructor.
    - inversion Ws; subst. now apply G.
    - apply IH. now inversion Ws. }
  destruct (concat_select _ _ F2 (wf_spectra f W)) as (C1 & _).
  destruct (wf_cov f W m Ec) as (Hn & Ho).
  assert (Lm : length (concat (map fst l ++ obs_masks f)) = m_n m).
  { rewrite concat_app, (proj1 (obs_masks_spec f (wf_obs f W))), app_length, C1, Hn.
    unfold ones, points. rewrite repeat_length, app_length. reflexivity. }
  destruct (mask_mat_of _ _ Lm) as (m' & Em).
  destruct (map fst l ++ obs_masks f)%list eqn:EL; [eauto |].
  unfold mask_covmat. cbn [f_cov f_nobs]. rewrite Em. cbn [bind].
  destruct (f_nobs f); [eauto | congruence].
Qed.

(** The kept positions of a file-wide mask given by a predicate. *)
Lemma keeps_of_mask : forall (P : point -> R -> Prop) mask f f',
  length mask = length (points f) ->
  (forall k b p v, nth_error mask k = Some b -> nth_error (points f) k = Some p -> nth_error (values f) k = Some v ->
     (b = true <-> P p v)) ->
  cut_by (kept mask) f f' -> keeps P f f'.
Proof.
  intros P mask f f' L H C. exists (kept mask). split; [exact C |].
  intros k p v Hp Hv. rewrite kept_in.
  destruct (nth_error mask k) as [b |] eqn:E.
  - specialize (H k b p v E Hp Hv). rewrite <- H. split; congruence.
  - exfalso. apply nth_error_None in E. assert (k < length (points f))%nat by (apply nth_error_Some; congruence). lia.
Qed.
