(** Cutting by index, choosing data sets, and sequences of cuts. *)
From Verif Require Import Base OptModel TpModel TpSpec TpFacts TpFacts2.
From Coq Require Import ZArith List Sorting.Sorted.
Import ListNotations.

(** ** mask_indices *)
Lemma norm_index_ok : forall n z k, norm_index n z = Ok k ->
  (k < n)%nat /\ (z = Z.of_nat k \/ z = (Z.of_nat k - Z.of_nat n)%Z).
Proof.
  intros n z k H. unfold norm_index in H.
  destruct ((0 <=? z)%Z && (z <? Z.of_nat n)%Z) eqn:E1.
  - apply andb_true_iff in E1 as (A & B). apply Z.leb_le in A. apply Z.ltb_lt in B. injection H as <-.
    split; [| left]; lia.
  - destruct ((- Z.of_nat n <=? z)%Z && (z <? 0)%Z) eqn:E2; [| discriminate H].
    apply andb_true_iff in E2 as (A & B). apply Z.leb_le in A. apply Z.ltb_lt in B. injection H as <-.
    split; [| right]; lia.
Qed.
Lemma norm_index_total : forall n z, (- Z.of_nat n <= z < Z.of_nat n)%Z <-> exists k, norm_index n z = Ok k.
Proof.
  intros n z. unfold norm_index. split.
  - intros (A & B). destruct (Z.leb_spec 0 z), (Z.ltb_spec z (Z.of_nat n)); cbn; eauto; try lia.
    destruct (Z.leb_spec (- Z.of_nat n) z), (Z.ltb_spec z 0); cbn; eauto; lia.
  - intros (k & H). apply norm_index_ok in H as (Hk & [-> | ->]); lia.
Qed.

(** The entry number [k] of a spectrum of [n] entries is named by the index [z]
    counted from the front, or from the back when negative. *)
Lemma names_entry_unique : forall n z k k', names_entry n z k -> names_entry n z k' -> k = k'.
Proof. intros n z k k' (A & [-> | ->]) (B & [E | E]); lia. Qed.

Lemma indices_mask_ok : forall n l m, indices_mask n l = Ok m ->
  l <> [] /\ Forall (fun z => - Z.of_nat n <= z < Z.of_nat n)%Z l /\ length m = n /\
  forall k, (k < n)%nat -> (nth_error m k = Some true <-> ~ exists z, In z l /\ names_entry n z k).
Proof.
  intros n l m H. unfold indices_mask in H. destruct l as [| z0 l0]; [discriminate H |].
  set (l := z0 :: l0) in *. apply bind_ok in H as (ks & Ek & H). injection H as <-.
  apply mapr_ok in Ek. split; [discriminate |]. split.
  { clear - Ek. induction Ek as [| z k l ks E _ IH]; constructor; [| exact IH]. apply norm_index_total. eauto. }
  split; [now rewrite map_length, seq_length |].
  intros k Hk.
  assert (E : nth_error (map (fun i => negb (existsb (Nat.eqb i) ks)) (seq 0 n)) k = Some (negb (existsb (Nat.eqb k) ks))).
  { apply (map_nth_error (fun i => negb (existsb (Nat.eqb i) ks))). rewrite (nth_error_nth' (seq 0 n) 0%nat) by (rewrite seq_length; lia). now rewrite seq_nth. }
  rewrite E.
  assert (Q : existsb (Nat.eqb k) ks = true <-> exists z, In z l /\ names_entry n z k).
  { rewrite existsb_exists. split.
    - intros (k' & Hin & Hk'). apply Nat.eqb_eq in Hk'. subst k'. clear - Ek Hin.
      induction Ek as [| z k0 l ks E _ IH]; [easy |]. destruct Hin as [-> | Hin].
      + exists z. split; [now left | now apply norm_index_ok].
      + destruct (IH Hin) as (z' & A & B). exists z'. split; [now right | exact B].
    - intros (z & Hz & Hn). exists k. split; [| apply Nat.eqb_refl]. clear - Ek Hz Hn.
      induction Ek as [| z' k0 l ks E _ IH]; [easy |]. destruct Hz as [-> | Hz].
      + left. apply norm_index_ok in E. now apply (names_entry_unique n z).
      + right. now apply IH. }
  rewrite <- Q. destruct (existsb (Nat.eqb k) ks); cbn; split; [discriminate | intro N; exfalso; now apply N | discriminate | reflexivity].
Qed.
Lemma indices_mask_total : forall n l, l <> [] -> Forall (fun z => - Z.of_nat n <= z < Z.of_nat n)%Z l ->
  exists m, indices_mask n l = Ok m.
Proof.
  intros n l N F. unfold indices_mask. destruct l as [| z l]; [congruence |].
  destruct (mapr_total (norm_index n) (z :: l)) as (ks & ->); [| cbn; eauto].
  intros x Hx. apply norm_index_total. now apply (proj1 (Forall_forall _ _) F).
Qed.

Definition idx_step (name : string) (l : list Z) (s : spectrum) : res (list bool * spectrum) :=
  if String.eqb (sp_name s) name then bind (indices_mask (length (sp_val s)) l) (fun m => masked m s)
  else Ok (ones (length (sp_val s)), s).
Lemma idx_step_good : forall name l, good_step (idx_step name l).
Proof.
  intros name l s q W H. unfold idx_step in H. destruct (String.eqb (sp_name s) name).
  - apply bind_ok in H as (m & Em & H). destruct (masked_cuts _ _ _ W H) as (-> & C). exact C.
  - injection H as <-. now apply ones_cuts.
Qed.

Lemma one_split : forall name sp,
  length (filter (fun s => String.eqb (sp_name s) name) sp) = 1%nat ->
  exists pre s post, sp = pre ++ s :: post /\ sp_name s = name /\
    Forall (fun x => sp_name x <> name) pre /\ Forall (fun x => sp_name x <> name) post.
Proof.
  induction sp as [| s sp IH]; cbn; intro H; [discriminate H |].
  destruct (String.eqb_spec (sp_name s) name) as [E | E].
  - exists [], s, sp. cbn in *. injection H as H. repeat split; auto.
    apply Forall_forall. intros x Hx Ex. apply length_zero_iff_nil in H.
    assert (In x (filter (fun s => String.eqb (sp_name s) name) sp)) as I
      by (apply filter_In; split; [exact Hx | now apply String.eqb_eq]).
    rewrite H in I. exact I.
  - destruct (IH H) as (pre & s0 & post & -> & A & B & C). exists (s :: pre), s0, post. repeat split; auto.
Qed.

Lemma idx_outside : forall name l sp q, mapr (idx_step name l) sp = Ok q -> Forall (fun x => sp_name x <> name) sp ->
  q = map (fun s => (ones (length (sp_val s)), s)) sp.
Proof.
  intros name l sp q H F. apply mapr_ok in H. induction H as [| s y sp q E _ IH]; cbn; [reflexivity |].
  inversion F as [| ? ? N F']; subst. unfold idx_step in E. destruct (String.eqb_spec (sp_name s) name); [easy |].
  injection E as <-. now rewrite (IH F').
Qed.
Lemma mapr_app_ok : forall {A B} (g : A -> res B) a b l, mapr g (a ++ b) = Ok l ->
  exists la lb, mapr g a = Ok la /\ mapr g b = Ok lb /\ l = la ++ lb.
Proof.
  induction a as [| x a IH]; intros b l H; cbn in *.
  - exists [], l. auto.
  - apply bind_ok in H as (y & Ey & H). apply bind_ok in H as (ys & Eys & H). injection H as <-.
    destruct (IH b ys Eys) as (la & lb & E1 & E2 & ->). exists (y :: la), lb. rewrite Ey, E1. auto.
Qed.

Lemma concat_ones : forall sp, Forall wf_sp sp ->
  concat (map fst (map (fun s => (ones (length (sp_val s)), s)) sp)) = ones (length (flat_map sp_points sp)).
Proof.
  induction 1 as [| s l W _ IH]; cbn; [reflexivity |]. rewrite IH, app_length, (sp_points_length s W).
  unfold ones. now rewrite repeat_app.
Qed.
Lemma ones_length : forall n, length (ones n) = n.
Proof. intro n. apply repeat_length. Qed.
Lemma nth_ones : forall n k, (k < n)%nat -> nth_error (ones n) k = Some true.
Proof. unfold ones. induction n as [| n IH]; intros [| k] H; cbn; try lia; [reflexivity |]. apply IH. lia. Qed.

Lemma mask_indices_spec : forall name l f f', wf_file f -> mask_indices name l f = Ok f' ->
  wf_file f' /\
  exists pre s post, f_spectra f = pre ++ s :: post /\ sp_name s = name /\
    Forall (fun x => sp_name x <> name) (pre ++ post) /\ l <> [] /\
    Forall (fun z => - Z.of_nat (length (sp_val s)) <= z < Z.of_nat (length (sp_val s)))%Z l /\
    exists K, cut_by K f f' /\
      forall k, In k K <-> (k < length (points f))%nat /\
        ~ exists z j, In z l /\ names_entry (length (sp_val s)) z j /\ k = (length (flat_map sp_points pre) + j)%nat.
Proof.
  intros name l f f' W H. unfold mask_indices in H.
  destruct (one_spectrum name f) eqn:E1; [| discriminate H]. apply Nat.eqb_eq in E1.
  change (cut_with (idx_step name l) f = Ok f') in H.
  destruct (cut_with_spec _ f f' W (idx_step_good name l) H) as (q & Eq & W' & L & _ & _ & C).
  split; [exact W' |].
  destruct (one_split name _ E1) as (pre & s & post & ES & En & Fpre & Fpost).
  exists pre, s, post. split; [exact ES |]. split; [exact En |].
  split; [now apply Forall_app |].
  pose proof (wf_spectra f W) as Ws. rewrite ES in Ws, Eq. apply Forall_app in Ws as (Wpre & Ws).
  inversion Ws as [| ? ? Wss Wpost]; subst.
  apply mapr_app_ok in Eq as (qa & qb & Ea & Eb & ->). cbn in Eb.
  apply bind_ok in Eb as (y & Ey & Eb). apply bind_ok in Eb as (ys & Eys & Eb). injection Eb as <-.
  apply idx_outside in Ea; [| exact Fpre]. apply idx_outside in Eys; [| exact Fpost].
  unfold idx_step in Ey. rewrite String.eqb_refl in Ey. apply bind_ok in Ey as (m & Em & Ey).
  destruct (masked_cuts _ _ _ Wss Ey) as (Efst & _).
  destruct (indices_mask_ok _ _ _ Em) as (Nl & Fl & Lm & Hm).
  split; [exact Nl |]. split; [exact Fl |].
  eexists. split; [exact C |]. intro k. rewrite kept_in.
  rewrite map_app, concat_app. cbn [map concat]. rewrite Ea, Eys, Efst.
  rewrite !concat_ones by assumption.
  set (off := length (flat_map sp_points pre)).
  assert (LP : length (points f) = (off + (length (sp_val s) + (length (flat_map sp_points post) + length (flat_map op_points (obs_list f)))))%nat).
  { unfold points. rewrite ES, flat_map_app, !app_length. cbn. rewrite !app_length, (sp_points_length s Wss). fold off. lia. }
  rewrite <- !app_assoc.
  destruct (Nat.lt_ge_cases k off) as [Hk | Hk].
  { rewrite nth_error_app1 by (unfold ones; rewrite repeat_length; exact Hk). rewrite nth_ones by exact Hk.
    split; [| reflexivity]. intros _. split; [lia |]. intros (z & j & _ & _ & E). lia. }
  rewrite nth_error_app2 by (unfold ones; rewrite repeat_length; exact Hk).
  rewrite ones_length.
  destruct (Nat.lt_ge_cases (k - off) (length (sp_val s))) as [Hj | Hj].
  { rewrite nth_error_app1 by lia. rewrite (Hm (k - off)%nat Hj). split.
    - intro N. split; [lia |]. intros (z & j & Hz & Hn & E). apply N. exists z. split; [exact Hz |].
      now replace (k - off)%nat with j by lia.
    - intros (_ & N) (z & Hz & Hn). apply N. exists z, (k - off)%nat. split; [exact Hz |]. split; [exact Hn | lia]. }
  rewrite nth_error_app2 by lia. rewrite Lm.
  unfold ones. rewrite <- repeat_app. fold (ones (length (flat_map sp_points post) + length (flat_map op_points (obs_list f)))).
  split.
  - intro E. assert (k - off - length (sp_val s) < length (flat_map sp_points post) + length (flat_map op_points (obs_list f)))%nat.
    { rewrite <- (repeat_length true (length (flat_map sp_points post) + length (flat_map op_points (obs_list f)))).
      apply nth_error_Some. unfold ones in E. congruence. }
    split; [lia |]. intros (z & j & _ & (Hn & _) & Q). lia.
  - intros (Q & _). apply nth_ones. lia.
Qed.

Lemma mask_indices_total : forall name l f, wf_file f ->
  (exists f', mask_indices name l f = Ok f') <->
  l <> [] /\ exists pre s post, f_spectra f = pre ++ s :: post /\ sp_name s = name /\
    Forall (fun x => sp_name x <> name) (pre ++ post) /\
    Forall (fun z => - Z.of_nat (length (sp_val s)) <= z < Z.of_nat (length (sp_val s)))%Z l.
Proof.
  intros name l f W. split.
  - intros (f' & H). destruct (mask_indices_spec name l f f' W H) as (_ & pre & s & post & A & B & C & D & E & _).
    split; [exact D |]. exists pre, s, post. auto.
  - intros (Nl & pre & s & post & ES & En & F & Fl). unfold mask_indices.
    assert (E1 : one_spectrum name f = true).
    { unfold one_spectrum. rewrite ES. apply Forall_app in F as (F1 & F2). rewrite filter_app.
      assert (N : forall sp, Forall (fun x => sp_name x <> name) sp -> filter (fun s => String.eqb (sp_name s) name) sp = []).
      { induction 1 as [| x t Hx _ IH]; cbn; [reflexivity |]. destruct (String.eqb_spec (sp_name x) name); [easy | exact IH]. }
      cbn. rewrite En, String.eqb_refl, (N _ F1), (N _ F2). reflexivity. }
    rewrite E1. apply (cut_with_total (idx_step name l) f W (idx_step_good name l)).
    intros x Hx. unfold idx_step. destruct (String.eqb_spec (sp_name x) name) as [E | E]; [| eauto].
    assert (x = s) as ->.
    { rewrite ES in Hx. apply Forall_app in F as (F1 & F2). apply in_app_or in Hx as [Hx | [Hx | Hx]]; [| now symmetry |];
        exfalso; revert E; [now apply (proj1 (Forall_forall _ _) F1) | now apply (proj1 (Forall_forall _ _) F2)]. }
    destruct (indices_mask_total _ l Nl Fl) as (m & Em). rewrite Em. cbn.
    apply masked_total; [now apply (proj1 (Forall_forall _ _) (wf_spectra f W)) |].
    now apply indices_mask_ok in Em.
Qed.

(** ** choose_data_sets *)
Lemma foldr_unit : forall {A} (g : A -> res unit) l,
  foldr (fun _ x => g x) l tt = Ok tt <-> forall x, In x l -> g x = Ok tt.
Proof.
  induction l as [| x l IH]; cbn; [split; easy |]. destruct (g x) as [[] | e] eqn:E; cbn.
  - rewrite IH. split; [intros H y [<- | Hy]; auto | intros H y Hy; auto].
  - split; [discriminate |]. intro H. specialize (H x (or_introl eq_refl)). congruence.
Qed.

Lemma sp_point_name : forall s p, In p (sp_points s) -> point_name p = sp_name s.
Proof. intros s p H. unfold sp_points in H. apply in_map_iff in H as ([[[b1 b2] ab] an] & <- & _). reflexivity. Qed.
Lemma op_point_name : forall o p, In p (op_points o) -> point_name p = op_name o.
Proof.
  intros o p H. unfold op_points in H. revert H. generalize 0%nat.
  induction (op_nobs o) as [| b t IH]; intros k H; cbn in H; [easy |].
  apply in_app_or in H as [H | H]; [| now apply (IH (S k))].
  unfold bin_points in H. apply in_map_iff in H as (i & <- & _). reflexivity.
Qed.

Lemma block_mask : forall (b : bool) (g : point -> bool) l, (forall p, In p l -> g p = b) ->
  (if b then ones (length l) else zeros (length l)) = map g l.
Proof.
  intros b g l H. assert (E : map g l = repeat b (length l)).
  { induction l as [| p l IH]; cbn; [reflexivity |]. rewrite (H p (or_introl eq_refl)), IH; auto. intros q Hq. apply H. now right. }
  rewrite E. now destruct b.
Qed.

Lemma select_filter_blocks : forall {A B} (use : A -> bool) (g : A -> list B) l,
  select (concat (map (fun x => if use x then ones (length (g x)) else zeros (length (g x))) l)) (flat_map g l)
  = flat_map g (filter use l).
Proof.
  induction l as [| x l IH]; cbn; [reflexivity |].
  rewrite select_app by (destruct (use x); unfold ones, zeros; apply repeat_length). rewrite IH.
  destruct (use x); cbn; [now rewrite select_ones | now rewrite select_zeros].
Qed.
Lemma blocks_length : forall {A B} (use : A -> bool) (g : A -> list B) l,
  length (concat (map (fun x => if use x then ones (length (g x)) else zeros (length (g x))) l)) = length (flat_map g l).
Proof.
  induction l as [| x l IH]; cbn; [reflexivity |]. rewrite !app_length, IH.
  destruct (use x); unfold ones, zeros; now rewrite repeat_length.
Qed.
Lemma blocks_pred : forall {A} (use : A -> bool) (g : A -> list point) (P : point -> bool) l,
  (forall x p, In x l -> In p (g x) -> P p = use x) ->
  concat (map (fun x => if use x then ones (length (g x)) else zeros (length (g x))) l) = map P (flat_map g l).
Proof.
  induction l as [| x l IH]; cbn; intro H; [reflexivity |]. rewrite map_app, IH by auto. f_equal.
  apply (block_mask (use x) P (g x)). intros p Hp. apply H; [now left | exact Hp].
Qed.
Lemma map_ext_Forall : forall {A B} (P : A -> Prop) (g h : A -> B) l,
  Forall P l -> (forall x, P x -> g x = h x) -> map g l = map h l.
Proof. induction 1 as [| x l Hx _ IH]; cbn; intro H; [reflexivity |]. now rewrite (H x Hx), IH. Qed.

Lemma choose_spec : forall sets f f', wf_file f -> choose_data_sets sets f = Ok f' ->
  wf_file f' /\ Forall (set_known f) sets /\ keeps (fun p _ => chosen_b sets p = true) f f' /\
  f_spectra f' = filter (fun s => mem (lower (sp_name s)) (map lower sets)) (f_spectra f) /\
  f_nobs f' = match f_nobs f with None => None | Some o => Some (filter (fun o => mem (lower (op_name o)) (map lower sets)) o) end /\
  f_info f' = f_info f.
Proof.
  intros sets f f' W H. unfold choose_data_sets in H. apply bind_ok in H as ([] & Ek & H).
  set (lsets := map lower sets) in *.
  set (use := fun s => mem (lower (sp_name s)) lsets) in *.
  set (use_obs := fun o => mem (lower (op_name o)) lsets) in *.
  pose proof (points_values f W) as PV. destruct W as [W1 W2 W3].
  assert (KN : Forall (set_known f) sets).
  { apply Forall_forall. intros d Hd. rewrite foldr_unit in Ek. specialize (Ek (lower d) (in_map lower _ _ Hd)). cbn in Ek.
    destruct (existsb (fun s => String.eqb (lower (sp_name s)) (lower d)) (f_spectra f)) eqn:E.
    - apply existsb_exists in E as (s & Hs & E). apply String.eqb_eq in E. left. eauto.
    - unfold set_known, obs_list. destruct (f_nobs f) as [obs |]; [| discriminate Ek].
      destruct (existsb (fun o => String.eqb (lower (op_name o)) (lower d)) obs) eqn:E2; [| discriminate Ek].
      apply existsb_exists in E2 as (o & Ho & E2). apply String.eqb_eq in E2. right. eauto. }
  set (spectra := filter use (f_spectra f)) in *.
  set (nobs := match f_nobs f with None => None | Some o => Some (filter use_obs o) end) in *.
  set (masks := (map (fun s => if use s then ones (length (sp_b1 s)) else zeros (length (sp_b1 s))) (f_spectra f)
             ++ map (fun o => if use_obs o then ones (sum_nat (op_nsample o)) else zeros (sum_nat (op_nsample o))) (obs_list f))%list) in *.
  assert (OL : obs_list (mkFile spectra nobs (f_info f) None) = filter use_obs (obs_list f)).
  { unfold obs_list, nobs; cbn. destruct (f_nobs f); reflexivity. }
  set (sm := concat (map (fun s => if use s then ones (length (sp_points s)) else zeros (length (sp_points s))) (f_spectra f))).
  set (om := concat (map (fun o => if use_obs o then ones (length (op_points o)) else zeros (length (op_points o))) (obs_list f))).
  assert (EM : concat masks = (sm ++ om)%list).
  { unfold masks, sm, om. rewrite concat_app. f_equal; f_equal.
    - apply (map_ext_Forall wf_sp); [exact W1 |]. intros s Ws. now rewrite (sp_points_length s Ws), (wf_b1 s Ws).
    - apply (map_ext_Forall wf_op); [exact W2 |]. intros o Wo. destruct (op_points_length o Wo) as (-> & ->). reflexivity. }
  assert (EMv : concat masks = (concat (map (fun s => if use s then ones (length (sp_val s)) else zeros (length (sp_val s))) (f_spectra f))
        ++ concat (map (fun o => if use_obs o then ones (length (concat (op_nobs o))) else zeros (length (concat (op_nobs o)))) (obs_list f)))%list).
  { unfold masks. rewrite concat_app. f_equal; f_equal.
    - apply (map_ext_Forall wf_sp); [exact W1 |]. intros s Ws. now rewrite (wf_b1 s Ws).
    - apply (map_ext_Forall wf_op); [exact W2 |]. intros o Wo. destruct (op_points_length o Wo) as (_ & ->). reflexivity. }
  assert (EP : concat masks = map (chosen_b sets) (points f)).
  { rewrite EM. unfold points. rewrite map_app. f_equal.
    - apply (blocks_pred use sp_points). intros s p _ Hp. unfold chosen_b. now rewrite (sp_point_name s p Hp).
    - apply (blocks_pred use_obs op_points). intros o p _ Hp. unfold chosen_b. now rewrite (op_point_name o p Hp). }
  assert (Lm : length (concat masks) = length (points f)) by (rewrite EP; apply map_length).
  set (pts' := (flat_map sp_points spectra ++ flat_map op_points (filter use_obs (obs_list f)))%list).
  set (vals' := (flat_map sp_val spectra ++ flat_map (fun o => concat (op_nobs o)) (filter use_obs (obs_list f)))%list).
  assert (P' : pts' = select (concat masks) (points f)).
  { rewrite EM. unfold points, pts', sm, om. rewrite select_app by (apply (blocks_length use sp_points)).
    rewrite (select_filter_blocks use sp_points), (select_filter_blocks use_obs op_points). reflexivity. }
  assert (V' : vals' = select (concat masks) (values f)).
  { rewrite EMv. unfold values, vals'. rewrite select_app by (apply (blocks_length use sp_val)).
    rewrite (select_filter_blocks use sp_val), (select_filter_blocks use_obs (fun o => concat (op_nobs o))). reflexivity. }
  assert (Wsp : Forall wf_sp spectra).
  { unfold spectra. clear - W1. induction W1 as [| s l Hs _ IH]; cbn; [constructor |]. destruct (use s); auto. }
  assert (Wop : Forall wf_op (filter use_obs (obs_list f))).
  { clear - W2. induction W2 as [| s l Hs _ IH]; cbn; [constructor |]. destruct (use_obs s); auto. }
  assert (Fin : forall cov',
     (forall m m', f_cov f = Some m -> cov' = Some m' -> mask_mat (concat masks) m = Ok m') ->
     (f_cov f = None <-> cov' = None) ->
     wf_file (mkFile spectra nobs (f_info f) cov') /\
     keeps (fun p _ => chosen_b sets p = true) f (mkFile spectra nobs (f_info f) cov')).
  { intros cov' HC HN.
    assert (OL' : obs_list (mkFile spectra nobs (f_info f) cov') = filter use_obs (obs_list f)) by exact OL.
    assert (PP : points (mkFile spectra nobs (f_info f) cov') = pts') by (unfold points; rewrite OL'; reflexivity).
    assert (VV : values (mkFile spectra nobs (f_info f) cov') = vals') by (unfold values; rewrite OL'; reflexivity).
    split.
    - constructor; [exact Wsp | rewrite OL'; exact Wop |]. cbn [f_cov f_nobs]. intros m' ->. rewrite PP, P'.
      destruct (f_cov f) as [m |] eqn:Ec; [| exfalso; now discriminate (proj1 HN eq_refl)].
      specialize (HC m m' eq_refl eq_refl). apply mask_mat_ok in HC as (_ & Hn & _). split.
      + rewrite Hn. symmetry. now apply (kept_from_length _ 0).
      + unfold nobs. destruct (W3 m eq_refl) as (_ & N). destruct (f_nobs f); [discriminate | congruence].
    - apply (keeps_of_mask _ (concat masks)); [exact Lm | |].
      + intros k b p v Hb Hp _. rewrite EP in Hb. rewrite (map_nth_error _ _ _ Hp) in Hb. injection Hb as <-. reflexivity.
      + constructor.
        * apply kept_from_sorted.
        * rewrite PP, P'. now apply kept_picks.
        * rewrite VV, V'. apply kept_picks. congruence.
        * cbn. destruct (f_cov f) as [m |], cov' as [m' |].
          -- specialize (HC m m' eq_refl eq_refl). apply mask_mat_ok in HC as (_ & Hn & Ha). auto.
          -- discriminate (proj2 HN eq_refl).
          -- discriminate (proj1 HN eq_refl).
          -- exact I. }
  destruct (f_cov f) as [m |] eqn:Ec.
  - match type of H with match ?l with [] => _ | _ => _ end = _ => change l with masks in H end.
    destruct masks as [| mk mks] eqn:EL; [discriminate H |].
    apply bind_ok in H as (m' & Em & H). injection H as <-.
    destruct (Fin (Some m')) as (F1 & F2).
    + intros m0 m1 [= <-] [= <-]. exact Em.
    + split; discriminate.
    + auto 6.
  - injection H as <-. destruct (Fin None) as (F1 & F2); [discriminate | easy |]. auto 6.
Qed.

Lemma choose_total : forall sets f, wf_file f -> Forall (set_known f) sets ->
  (f_spectra f <> [] \/ obs_list f <> []) -> exists f', choose_data_sets sets f = Ok f'.
Proof.
  intros sets f W K NE. unfold choose_data_sets.
  assert (Ek : foldr (fun (_ : unit) d =>
          if existsb (fun s => String.eqb (lower (sp_name s)) d) (f_spectra f) then Ok tt
          else match f_nobs f with
               | None => Err "TypeError"%string
               | Some obs => if existsb (fun o => String.eqb (lower (op_name o)) d) obs then Ok tt else Err "ValueError"%string
               end) (map lower sets) tt = Ok tt).
  { apply (proj2 (foldr_unit _ _)). intros d Hd. apply in_map_iff in Hd as (d0 & <- & Hd).
    destruct (existsb (fun s => String.eqb (lower (sp_name s)) (lower d0)) (f_spectra f)) eqn:E; [reflexivity |].
    destruct (proj1 (Forall_forall _ _) K d0 Hd) as [(s & Hs & Es) | (o & Ho & Eo)].
    - exfalso. assert (T : existsb (fun s => String.eqb (lower (sp_name s)) (lower d0)) (f_spectra f) = true)
        by (apply existsb_exists; exists s; split; [exact Hs | now apply String.eqb_eq]). congruence.
    - unfold obs_list in Ho. destruct (f_nobs f) as [obs |]; [| easy].
      replace (existsb (fun o => String.eqb (lower (op_name o)) (lower d0)) obs) with true; [reflexivity |].
      symmetry. apply existsb_exists. exists o. split; [exact Ho | now apply String.eqb_eq]. }
  rewrite Ek. cbn [bind]. destruct (f_cov f) as [m |] eqn:Ec; [| eauto].
  match goal with |- exists f', match ?l with [] => _ | _ => _ end = _ => set (masks := l) end.
  assert (Lm : length (concat masks) = m_n m).
  { unfold masks. rewrite concat_app, app_length, (proj1 (wf_cov f W m Ec)). unfold points. rewrite app_length. f_equal.
    - pose proof (wf_spectra f W) as Ws. clear - Ws. induction Ws as [| s l Hs _ IH]; cbn; [reflexivity |].
      rewrite !app_length, IH, (sp_points_length s Hs), <- (wf_b1 s Hs).
      destruct (mem _ _); unfold ones, zeros; now rewrite repeat_length.
    - pose proof (wf_obs f W) as Wo. clear - Wo. induction Wo as [| o l Ho _ IH]; cbn; [reflexivity |].
      rewrite !app_length, IH. destruct (op_points_length o Ho) as (-> & ->).
      destruct (mem _ _); unfold ones, zeros; now rewrite repeat_length. }
  destruct (mask_mat_of _ _ Lm) as (m' & Em). rewrite Em.
  destruct masks as [| a b] eqn:EL; [| cbn [bind]; eauto].
  exfalso. apply app_eq_nil in EL as (A & B). apply map_eq_nil in A, B. destruct NE; contradiction.
Qed.

(** ** Sequences *)
Lemma keeps_cut : forall P f f', keeps P f f' -> exists K, cut_by K f f'.
Proof. intros P f f' (K & C & _). eauto. Qed.

Lemma run_op_cut : forall o f f', wf_file f -> run_op o f = Ok f' -> wf_file f' /\ exists K, cut_by K f f'.
Proof.
  intros [v | | c b | t lo hi | n l | s] f f' W H; cbn in H.
  - destruct (mask_bad_spec _ _ _ W H) as (A & B). split; [exact A | now apply keeps_cut in B].
  - destruct (mask_cross_spec _ _ W H) as (A & B). split; [exact A | now apply keeps_cut in B].
  - destruct (mask_scales_spec _ _ _ _ W H) as (A & B). split; [exact A | now apply keeps_cut in B].
  - destruct (mask_scale_spec _ _ _ _ _ W H) as (A & B). split; [exact A | now apply keeps_cut in B].
  - destruct (mask_indices_spec _ _ _ _ W H) as (A & ? & ? & ? & _ & _ & _ & _ & _ & K & B & _). eauto.
  - destruct (choose_spec _ _ _ W H) as (A & _ & B & _). split; [exact A | now apply keeps_cut in B].
Qed.

Lemma seq_sorted : forall n k, StronglySorted lt (seq k n).
Proof.
  induction n as [| n IH]; intro k; cbn; constructor; [apply IH |].
  apply Forall_forall. intros x Hx. apply in_seq in Hx. lia.
Qed.
Lemma picks_id : forall {A} (l : list A), picks (seq 0 (length l)) l l.
Proof.
  intros A l. split; [now rewrite seq_length |]. intros i k E.
  assert (H : (i < length (seq 0 (length l)))%nat) by (apply nth_error_Some; congruence). rewrite seq_length in H.
  rewrite (nth_error_nth' _ 0%nat) in E by (rewrite seq_length; exact H). rewrite seq_nth in E by exact H. cbn in E.
  injection E as <-. destruct (nth_error l i) as [x |] eqn:Ex; [eauto |]. apply nth_error_None in Ex. lia.
Qed.
Lemma cut_refl : forall f, wf_file f -> cut_by (seq 0 (length (points f))) f f.
Proof.
  intros f W. constructor.
  - apply seq_sorted.
  - apply picks_id.
  - rewrite (points_values f W). apply picks_id.
  - destruct (f_cov f) as [m |] eqn:E; [| exact I]. destruct (wf_cov f W m E) as (Hn & _).
    split; [now rewrite seq_length |]. intros i j a b Ea Eb.
    assert (Q : forall i a, nth_error (seq 0 (length (points f))) i = Some a -> a = i).
    { intros i0 a0 E0. assert (H : (i0 < length (seq 0 (length (points f))))%nat) by (apply nth_error_Some; congruence).
      rewrite (nth_error_nth' _ 0%nat) in E0 by exact H. rewrite seq_length in H. rewrite seq_nth in E0 by exact H.
      cbn in E0. congruence. }
    now rewrite (Q i a Ea), (Q j b Eb).
Qed.

(** Positions composed: the entries of [K1] at the positions [K2]. *)
Definition compose_K (K1 K2 : list nat) : list nat := map (fun k => nth k K1 0%nat) K2.
Lemma sorted_nth : forall K, StronglySorted lt K -> forall i j a b,
  nth_error K i = Some a -> nth_error K j = Some b -> (i < j)%nat -> (a < b)%nat.
Proof.
  induction 1 as [| x K _ IH F]; intros i j a b Ea Eb L; [destruct i; discriminate Ea |].
  destruct i as [| i], j as [| j]; cbn in *; try lia.
  - injection Ea as ->. apply (proj1 (Forall_forall _ _) F). now apply nth_error_In in Eb.
  - apply (IH i j); auto. lia.
Qed.
Lemma compose_nth : forall K1 K2 i k, Forall (fun x => x < length K1)%nat K2 ->
  nth_error (compose_K K1 K2) i = Some k -> exists j, nth_error K2 i = Some j /\ nth_error K1 j = Some k.
Proof.
  intros K1 K2 i k F E. unfold compose_K in E. rewrite nth_error_map in E.
  destruct (nth_error K2 i) as [j |] eqn:Ej; [| discriminate E]. cbn in E. injection E as <-.
  exists j. split; [reflexivity |]. apply nth_error_nth'. apply (proj1 (Forall_forall _ _) F). now apply nth_error_In in Ej.
Qed.
Lemma compose_sorted : forall K1 K2, StronglySorted lt K1 -> StronglySorted lt K2 ->
  Forall (fun x => x < length K1)%nat K2 -> StronglySorted lt (compose_K K1 K2).
Proof.
  intros K1 K2 S1. induction 1 as [| x K2 S2 IH F2]; intro F; cbn; constructor.
  - apply IH. now inversion F.
  - inversion F as [| ? ? Fx F']; subst. apply Forall_forall. intros y Hy. apply in_map_iff in Hy as (z & <- & Hz).
    apply (sorted_nth K1 S1 x z); [apply nth_error_nth'; exact Fx | |].
    + apply nth_error_nth'. now apply (proj1 (Forall_forall _ _) F').
    + now apply (proj1 (Forall_forall _ _) F2).
Qed.
Lemma picks_range : forall {A} K (l l' : list A), picks K l l' -> Forall (fun k => k < length l)%nat K.
Proof.
  intros A K l l' (_ & H). apply Forall_forall. intros k Hk. apply In_nth_error in Hk as (i & Hi).
  destruct (H i k Hi) as (x & Hx & _). apply nth_error_Some. congruence.
Qed.
Lemma picks_trans : forall {A} K1 K2 (l l' l'' : list A), picks K1 l l' -> picks K2 l' l'' -> picks (compose_K K1 K2) l l''.
Proof.
  intros A K1 K2 l l' l'' P1' P2'. pose proof (picks_range _ _ _ P2') as F. destruct P1' as (L1 & H1). destruct P2' as (L2 & H2).
  rewrite L1 in F. split; [unfold compose_K; now rewrite map_length |].
  intros i k E. apply (compose_nth _ _ _ _ F) in E as (j & Ej & Ek).
  destruct (H2 i j Ej) as (x & Hx & Hx'). destruct (H1 j k Ek) as (y & Hy & Hy'). exists y. split; [exact Hy | congruence].
Qed.
Lemma cut_trans : forall K1 K2 f g h, cut_by K1 f g -> cut_by K2 g h -> cut_by (compose_K K1 K2) f h.
Proof.
  intros K1 K2 f g h [S1 A1 B1 C1] [S2 A2 B2 C2].
  assert (F : Forall (fun x => x < length K1)%nat K2) by (rewrite <- (proj1 A1); now apply picks_range in A2).
  constructor.
  - now apply compose_sorted.
  - now apply (picks_trans K1 K2 _ (points g)).
  - now apply (picks_trans K1 K2 _ (values g)).
  - destruct (f_cov f) as [m |], (f_cov g) as [m' |], (f_cov h) as [m'' |]; try contradiction; [| exact I].
    destruct C1 as (N1 & E1), C2 as (N2 & E2). split; [unfold compose_K; now rewrite map_length |].
    intros i j a b Ea Eb. apply (compose_nth _ _ _ _ F) in Ea as (i' & Ei & Ea). apply (compose_nth _ _ _ _ F) in Eb as (j' & Ej & Eb).
    rewrite (E2 i j i' j' Ei Ej). now apply E1.
Qed.

Lemma run_ops_cut : forall ops f f', wf_file f -> run_ops ops f = Ok f' -> wf_file f' /\ exists K, cut_by K f f'.
Proof.
  induction ops as [| o ops IH]; intros f f' W H; cbn in H.
  - injection H as <-. split; [exact W |]. eexists. now apply cut_refl.
  - apply bind_ok in H as (g & Hg & H). destruct (run_op_cut o f g W Hg) as (Wg & K1 & C1).
    destruct (IH g f' Wg H) as (W' & K2 & C2). split; [exact W' |]. eexists. exact (cut_trans _ _ _ _ _ C1 C2).
Qed.

(** Predicates compose by conjunction. *)
Lemma keeps_trans : forall P Q f g h, keeps P f g -> keeps Q g h -> keeps (fun p v => P p v /\ Q p v) f h.
Proof.
  intros P Q f g h (K1 & C1 & I1) (K2 & C2 & I2). exists (compose_K K1 K2). split; [exact (cut_trans _ _ _ _ _ C1 C2) |].
  assert (F : Forall (fun x => x < length K1)%nat K2).
  { rewrite <- (proj1 (cut_points _ _ _ C1)). pose proof (cut_points _ _ _ C2) as X. now apply picks_range in X. }
  intros k p v Hp Hv. split.
  - intro H. apply In_nth_error in H as (i & Hi). apply (compose_nth _ _ _ _ F) in Hi as (j & Hj & Hk).
    split; [apply (I1 k p v Hp Hv); now apply nth_error_In in Hk |].
    destruct (proj2 (cut_points _ _ _ C1) j k Hk) as (p' & Ep & Ep').
    destruct (proj2 (cut_values _ _ _ C1) j k Hk) as (v' & Ev & Ev').
    assert (p' = p) by congruence. assert (v' = v) by congruence. subst p' v'.
    apply (I2 j p v Ep' Ev'). now apply nth_error_In in Hj.
  - intros (HP & HQ). apply (I1 k p v Hp Hv) in HP. apply In_nth_error in HP as (j & Hj).
    destruct (proj2 (cut_points _ _ _ C1) j k Hj) as (p' & Ep & Ep').
    destruct (proj2 (cut_values _ _ _ C1) j k Hj) as (v' & Ev & Ev').
    assert (p' = p) by congruence. assert (v' = v) by congruence. subst p' v'.
    apply (I2 j p v Ep' Ev') in HQ. unfold compose_K. apply in_map_iff. exists j. split; [| exact HQ].
    now apply nth_error_nth with (d := 0%nat) in Hj.
Qed.
Lemma keeps_refl : forall f, wf_file f -> keeps (fun _ _ => True) f f.
Proof.
  intros f W. exists (seq 0 (length (points f))). split; [now apply cut_refl |]. intros k p v Hp _. split; [easy |].
  intros _. apply in_seq. split; [lia |]. cbn. apply nth_error_Some. congruence.
Qed.
