(** The theory and the data stay in step under the same cuts. *)
From Verif Require Import Base OptModel TpModel TpSpec TpFacts TpFacts2 TpFacts3 TpFacts4.
From Coq Require Import ZArith List Sorting.Sorted.
Import ListNotations.

Lemma sorted_unique : forall K K', StronglySorted lt K -> StronglySorted lt K' -> (forall k, In k K <-> In k K') -> K = K'.
Proof.
  induction K as [| x K IH]; intros K' S S' H.
  - destruct K' as [| y K']; [reflexivity |]. exfalso. apply (H y). now left.
  - destruct K' as [| y K']; [exfalso; apply (H x); now left |].
    inversion S as [| ? ? SK FK]; inversion S' as [| ? ? SK' FK']; subst.
    rewrite Forall_forall in FK, FK'.
    assert (x = y).
    { destruct (proj1 (H x) (or_introl eq_refl)) as [E | E]; [now symmetry |].
      destruct (proj2 (H y) (or_introl eq_refl)) as [E' | E']; [exact E' |].
      apply FK' in E. apply FK in E'. lia. }
    subst y. f_equal. apply IH; auto. intro k. split; intro Hk.
    + destruct (proj1 (H k) (or_intror Hk)) as [E | E]; [| exact E]. subst k. apply FK in Hk. lia.
    + destruct (proj2 (H k) (or_intror Hk)) as [E | E]; [| exact E]. subst k. apply FK' in Hk. lia.
Qed.
Lemma list_ext : forall {A} (a b : list A), (forall i, nth_error a i = nth_error b i) -> a = b.
Proof.
  induction a as [| x a IH]; intros [| y b] H.
  - reflexivity. - discriminate (H 0%nat). - discriminate (H 0%nat).
  - pose proof (H 0%nat) as E. cbn in E. injection E as ->. f_equal. apply IH. intro i. exact (H (S i)).
Qed.
Lemma picks_unique : forall {A} K (l a b : list A), picks K l a -> picks K l b -> a = b.
Proof.
  intros A K l a b (La & Ha) (Lb & Hb). apply list_ext. intro i.
  destruct (nth_error K i) as [k |] eqn:E.
  - destruct (Ha i k E) as (x & X1 & X2). destruct (Hb i k E) as (y & Y1 & Y2). congruence.
  - apply nth_error_None in E. assert (nth_error a i = None) as -> by (apply nth_error_None; lia).
    symmetry. apply nth_error_None. lia.
Qed.
Lemma select_filter : forall {A} (b : A -> bool) l, select (map b l) l = filter b l.
Proof. induction l as [| x l IH]; cbn; [reflexivity |]. now rewrite IH. Qed.

Lemma keeps_filter : forall (b : point -> bool) f f', wf_file f -> keeps (fun p _ => b p = true) f f' ->
  points f' = filter b (points f).
Proof.
  intros b f f' W (K & C & I). rewrite <- select_filter.
  assert (E : K = kept (map b (points f))).
  { apply sorted_unique; [exact (cut_sorted _ _ _ C) | apply kept_from_sorted |]. intro k. rewrite kept_in, nth_error_map.
    destruct (nth_error (points f) k) as [p |] eqn:Ep; cbn.
    - destruct (nth_error (values f) k) as [v |] eqn:Ev.
      + rewrite (I k p v Ep Ev). split; congruence.
      + exfalso. apply nth_error_None in Ev. rewrite <- (points_values f W) in Ev.
        assert (k < length (points f))%nat by (apply nth_error_Some; congruence). lia.
    - split; [| discriminate]. intro H. exfalso. apply nth_error_None in Ep.
      pose proof (cut_points _ _ _ C) as P. apply picks_range in P. rewrite Forall_forall in P. specialize (P k H). lia. }
  apply (picks_unique K (points f)); [exact (cut_points _ _ _ C) |]. rewrite E. apply kept_picks. apply map_length.
Qed.

(** ** The cuts that look only at the labels *)
Definition label_op (o : op) : Prop := match o with OBad _ => False | OChoose _ => False | _ => True end.
Definition is_two (n : string) (p : point) : bool := match p with P2 m _ _ _ _ => String.eqb m n | P1 _ _ _ => false end.

Lemma mask_indices_points : forall name l f f', wf_file f -> mask_indices name l f = Ok f' ->
  exists A s B m, points f = A ++ sp_points s ++ B /\ sp_name s = name /\ wf_sp s /\
    filter (is_two name) A = [] /\ filter (is_two name) B = [] /\
    indices_mask (length (sp_points s)) l = Ok m /\ points f' = A ++ select m (sp_points s) ++ B.
Proof.
  intros name l f f' W H. unfold mask_indices in H.
  destruct (one_spectrum name f) eqn:E1; [| discriminate H]. apply Nat.eqb_eq in E1.
  change (cut_with (idx_step name l) f = Ok f') in H.
  destruct (cut_with_spec _ f f' W (idx_step_good name l) H) as (q & Eq & W' & L & Esp & Eob & C).
  destruct (one_split name _ E1) as (pre & s & post & ES & En & Fpre & Fpost).
  pose proof (wf_spectra f W) as Ws. rewrite ES in Ws, Eq. apply Forall_app in Ws as (Wpre & Ws).
  inversion Ws as [| ? ? Wss Wpost]; subst.
  apply mapr_app_ok in Eq as (qa & qb & Ea & Eb & ->). cbn in Eb.
  apply bind_ok in Eb as (y & Ey & Eb). apply bind_ok in Eb as (ys & Eys & Eb). injection Eb as <-.
  apply idx_outside in Ea; [| exact Fpre]. apply idx_outside in Eys; [| exact Fpost].
  unfold idx_step in Ey. rewrite String.eqb_refl in Ey. apply bind_ok in Ey as (m & Em & Ey).
  destruct (masked_cuts _ _ _ Wss Ey) as (Efst & _ & _ & _ & Ep & _).
  assert (NT : forall sp, Forall (fun x => sp_name x <> sp_name s) sp -> filter (is_two (sp_name s)) (flat_map sp_points sp) = []).
  { clear. induction 1 as [| x t Hx _ IH]; cbn; [reflexivity |]. rewrite filter_app, IH, app_nil_r.
    unfold sp_points. induction (combine (combine (combine (sp_b1 x) (sp_b2 x)) (sp_abin x)) (sp_ang x)) as [| [[[b1 b2] ab] an] r IHr]; cbn; [reflexivity |].
    destruct (String.eqb_spec (sp_name x) (sp_name s)); [easy | exact IHr]. }
  exists (flat_map sp_points pre), s, (flat_map sp_points post ++ flat_map op_points (obs_list f)), m.
  split. { unfold points. rewrite ES, flat_map_app. cbn. now rewrite <- !app_assoc. }
  split; [reflexivity |]. split; [exact Wss |]. split; [now apply NT |]. split.
  { rewrite filter_app, (NT _ Fpost). cbn. clear.
    assert (Q : Forall (fun p => exists n k i, p = P1 n k i) (flat_map op_points (obs_list f))) by (apply Forall_forall; intro; apply P1_points).
    induction Q as [| p t (n & k & i & ->) _ IH]; cbn; [reflexivity | exact IH]. }
  split; [now rewrite (sp_points_length s Wss) |].
  unfold points. rewrite Esp, map_app. cbn [map]. rewrite flat_map_app. cbn [flat_map]. rewrite Ep, Ea, Eys, !map_map. cbn [snd].
  rewrite !map_id. unfold obs_list. rewrite Eob. now rewrite <- !app_assoc.
Qed.

Lemma filter_filter_comm : forall {A} (a b : A -> bool) l, filter a (filter b l) = filter b (filter a l).
Proof.
  induction l as [| x l IH]; cbn; [reflexivity |]. destruct (a x) eqn:Ea, (b x) eqn:Eb; cbn; rewrite ?Ea, ?Eb, IH; reflexivity.
Qed.
Lemma filter_none : forall {A} (t : A -> bool) l, filter t l = [] <-> forall x, In x l -> t x = false.
Proof.
  induction l as [| x l IH]; cbn; [split; easy |]. destruct (t x) eqn:E.
  - split; [discriminate |]. intro H. specialize (H x (or_introl eq_refl)). congruence.
  - rewrite IH. split; [intros H y [<- | Hy]; auto | auto].
Qed.
(** Two decompositions around a non-empty run of marked entries agree. *)
Lemma middle_unique : forall {A} (t : A -> bool) a s b a' s' b',
  a ++ s ++ b = a' ++ s' ++ b' -> filter t a = [] -> filter t a' = [] -> filter t b = [] -> filter t b' = [] ->
  (forall x, In x s -> t x = true) -> (forall x, In x s' -> t x = true) -> s <> [] -> s' <> [] -> a = a' /\ s = s' /\ b = b'.
Proof.
  intros A t. induction a as [| x a IH]; intros s b a' s' b' E Fa Fa' Fb Fb' Hs Hs' Ns Ns'.
  - destruct a' as [| y a'].
    + cbn in E. split; [reflexivity |]. clear Fa Fa'.
      assert (Q : forall s s', s ++ b = s' ++ b' -> (forall x, In x s -> t x = true) -> (forall x, In x s' -> t x = true) -> s = s' /\ b = b').
      { clear - Fb Fb'. induction s as [| x s IH]; intros [| y s'] E Hs Hs'; cbn in E.
        - auto.
        - exfalso. subst b. specialize (Hs' y (or_introl eq_refl)). rewrite filter_none in Fb. rewrite (Fb y (or_introl eq_refl)) in Hs'. discriminate Hs'.
        - exfalso. subst b'. specialize (Hs x (or_introl eq_refl)). rewrite filter_none in Fb'. rewrite (Fb' x (or_introl eq_refl)) in Hs. discriminate Hs.
        - injection E as -> E. destruct (IH s' E) as (-> & ->); auto.
          + intros z Hz. apply Hs. now right.
          + intros z Hz. apply Hs'. now right. }
      now apply Q.
    + exfalso. destruct s as [| z s]; [congruence |]. cbn in E. injection E as -> _.
      specialize (Hs y (or_introl eq_refl)). rewrite filter_none in Fa'. rewrite (Fa' y (or_introl eq_refl)) in Hs. discriminate Hs.
  - destruct a' as [| y a'].
    + exfalso. destruct s' as [| z s']; [congruence |]. cbn in E. injection E as -> _.
      specialize (Hs' z (or_introl eq_refl)). rewrite filter_none in Fa. rewrite (Fa z (or_introl eq_refl)) in Hs'. discriminate Hs'.
    + cbn in E. injection E as -> E. cbn in Fa, Fa'. destruct (t y); try discriminate.
      destruct (IH s b a' s' b' E) as (-> & ? & ?); auto.
Qed.

Lemma sp_points_two : forall s p, In p (sp_points s) -> is_two (sp_name s) p = true.
Proof.
  intros s p H. unfold sp_points in H. apply in_map_iff in H as ([[[b1 b2] ab] an] & <- & _). cbn. apply String.eqb_refl.
Qed.
Lemma filter_all : forall {A} (b : A -> bool) l, (forall x, In x l -> b x = true) -> filter b l = l.
Proof.
  induction l as [| x l IH]; cbn; intro H; [reflexivity |]. rewrite (H x (or_introl eq_refl)), IH; auto.
Qed.
Lemma indices_nonempty : forall n l m, indices_mask n l = Ok m -> n <> 0%nat.
Proof.
  intros n l m H E. subst n. apply indices_mask_ok in H as (N & F & _). destruct l as [| z l]; [congruence |].
  inversion F as [| ? ? Hz _]; subst. cbn in Hz. lia.
Qed.

Definition by_name (c : string -> bool) (p : point) : bool := c (point_name p).

Lemma indices_align : forall c name l f g f' g', wf_file f -> wf_file g ->
  points g = filter (by_name c) (points f) ->
  mask_indices name l f = Ok f' -> mask_indices name l g = Ok g' ->
  points g' = filter (by_name c) (points f').
Proof.
  intros c name l f g f' g' Wf Wg E Hf Hg.
  destruct (mask_indices_points name l f f' Wf Hf) as (A & s & B & m & P1' & N1 & W1 & FA & FB & Em & Q1).
  destruct (mask_indices_points name l g g' Wg Hg) as (A' & s' & B' & m' & P2' & N2 & W2 & FA' & FB' & Em' & Q2).
  rewrite P1', P2', !filter_app in E.
  assert (Ns : sp_points s <> []) by (intro Z; rewrite Z in Em; now apply indices_nonempty in Em).
  assert (Ns' : sp_points s' <> []) by (intro Z; rewrite Z in Em'; now apply indices_nonempty in Em').
  assert (FF : forall X, filter (is_two name) X = [] -> filter (is_two name) (filter (by_name c) X) = []).
  { intros X HX. rewrite filter_filter_comm, HX. reflexivity. }
  assert (CS : forall b, c name = b -> forall p, In p (sp_points s) -> by_name c p = b).
  { intros b Hb p Hp. unfold by_name. rewrite (sp_point_name s p Hp), N1. exact Hb. }
  destruct (c name) eqn:Ec.
  - rewrite (filter_all (by_name c) (sp_points s)) in E by (apply (CS true); reflexivity).
    destruct (middle_unique (is_two name) _ _ _ _ _ _ E FA' (FF A FA) FB' (FF B FB)) as (EA & Es & EB);
      [intros x Hx; rewrite <- N2; now apply sp_points_two | intros x Hx; rewrite <- N1; now apply sp_points_two | exact Ns' | exact Ns |].
    rewrite Q1, Q2, !filter_app. rewrite <- EA, <- EB. rewrite Es in Em' |- *.
    assert (m = m') by congruence. subst m'.
    rewrite (filter_all (by_name c) (select m (sp_points s))); [reflexivity |].
    intros p Hp. apply select_in in Hp. exact (CS true eq_refl p Hp).
  - exfalso. replace (filter (by_name c) (sp_points s)) with (@nil point) in E by (symmetry; apply filter_none; apply (CS false); reflexivity).
    cbn in E. assert (Z : filter (is_two name) (A' ++ sp_points s' ++ B') = []).
    { rewrite E, filter_app, (FF A FA), (FF B FB). reflexivity. }
    rewrite !filter_app, FA', FB' in Z. cbn in Z. rewrite app_nil_r in Z.
    rewrite (filter_all (is_two name) (sp_points s')) in Z; [contradiction |]. intros x Hx. rewrite <- N2. now apply sp_points_two.
Qed.

Lemma op_align : forall o c f g f' g', label_op o -> wf_file f -> wf_file g ->
  points g = filter (by_name c) (points f) -> run_op o f = Ok f' -> run_op o g = Ok g' ->
  points g' = filter (by_name c) (points f').
Proof.
  intros o c f g f' g' Lo Wf Wg E Hf Hg.
  assert (Lab : forall b, keeps (fun p _ => b p = true) f f' -> keeps (fun p _ => b p = true) g g' -> points g' = filter (by_name c) (points f')).
  { intros b K1 K2. rewrite (keeps_filter b f f' Wf K1), (keeps_filter b g g' Wg K2), E. apply filter_filter_comm. }
  destruct o as [v | | cu b | t lo hi | n l | s]; cbn in Hf, Hg; try contradiction.
  - apply (Lab cross_b); [now apply (mask_cross_spec f f' Wf) | now apply (mask_cross_spec g g' Wg)].
  - apply (Lab (scales_b cu b)); [now apply (mask_scales_spec cu b f f' Wf) | now apply (mask_scales_spec cu b g g' Wg)].
  - apply (Lab (scale_b t lo hi)); [now apply (mask_scale_spec t lo hi f f' Wf) | now apply (mask_scale_spec t lo hi g g' Wg)].
  - exact (indices_align c n l f g f' g' Wf Wg E Hf Hg).
Qed.

Lemma ops_align : forall ops c f g f' g', Forall label_op ops -> wf_file f -> wf_file g ->
  points g = filter (by_name c) (points f) -> run_ops ops f = Ok f' -> run_ops ops g = Ok g' ->
  points g' = filter (by_name c) (points f').
Proof.
  induction ops as [| o ops IH]; intros c f g f' g' L Wf Wg E Hf Hg; cbn in Hf, Hg.
  - now injection Hf as <-; injection Hg as <-.
  - apply bind_ok in Hf as (f1 & Hf1 & Hf). apply bind_ok in Hg as (g1 & Hg1 & Hg). inversion L; subst.
    destruct (run_op_cut o f f1 Wf Hf1) as (Wf1 & _). destruct (run_op_cut o g g1 Wg Hg1) as (Wg1 & _).
    apply (IH c f1 g1 f' g'); auto. now apply (op_align o c f g).
Qed.

(** ** The module's cuts are such a sequence *)
Lemma run_ops_app : forall a b f, run_ops (a ++ b) f = bind (run_ops a f) (run_ops b).
Proof.
  induction a as [| o a IH]; intros b f; cbn; [reflexivity |]. destruct (run_op o f); cbn; [apply IH | reflexivity].
Qed.
Lemma run_ops_map : forall {A} (g : A -> op) l f, run_ops (map g l) f = foldr (fun f x => run_op (g x) f) l f.
Proof.
  induction l as [| x l IH]; intro f; cbn; [reflexivity |]. destruct (run_op (g x) f); cbn; [apply IH | reflexivity].
Qed.
Lemma bind_Ok : forall {A} (r : res A), bind r (@Ok A) = r.
Proof. now intros A [a | e]. Qed.
Lemma cut_scales_run : forall a f, cut_scales a f = run_ops (
  (if a_cross a then [OCross] else []) ++ match a_pairs a with [] => [] | p => [OScales [] p] end ++
  map (fun b => OIndices (fst b) (snd b)) (a_bins a)) f.
Proof.
  intros a f. unfold cut_scales. rewrite run_ops_app.
  assert (E1 : (if a_cross a then mask_cross f else Ok f) = run_ops (if a_cross a then [OCross] else []) f).
  { destruct (a_cross a); cbn; [now destruct (mask_cross f) | reflexivity]. }
  rewrite E1. destruct (run_ops (if a_cross a then [OCross] else []) f) as [f1 | e]; cbn [bind]; [| reflexivity].
  rewrite run_ops_app.
  assert (E2 : match a_pairs a with [] => Ok f1 | p => mask_scales [] p f1 end
             = run_ops match a_pairs a with [] => [] | p => [OScales [] p] end f1).
  { destruct (a_pairs a) as [| x p]; [reflexivity |]. cbn [run_ops run_op]. now destruct (mask_scales _ _ f1). }
  rewrite E2. destruct (run_ops match a_pairs a with [] => [] | p => [OScales [] p] end f1) as [f2 | e]; cbn [bind]; [| reflexivity].
  now rewrite (run_ops_map (fun b => OIndices (fst b) (snd b))).
Qed.
Lemma keep_scales_run : forall a f, keep_scales a f = run_ops (
  match a_keep3 a with [] => [] | c => [OScales c []] end ++
  map (fun k => OScale (fst k) (fst (snd k)) (snd (snd k))) (a_keep1 a)) f.
Proof.
  intros a f. unfold keep_scales. rewrite run_ops_app.
  assert (E2 : match a_keep3 a with [] => Ok f | c => mask_scales c [] f end
             = run_ops match a_keep3 a with [] => [] | c => [OScales c []] end f).
  { destruct (a_keep3 a) as [| x p]; [reflexivity |]. cbn [run_ops run_op]. now destruct (mask_scales _ _ f). }
  rewrite E2. destruct (run_ops match a_keep3 a with [] => [] | c => [OScales c []] end f) as [f2 | e]; cbn [bind]; [| reflexivity].
  now rewrite (run_ops_map (fun k => OScale (fst k) (fst (snd k)) (snd (snd k)))).
Qed.
Lemma cuts_run : forall a f, bind (cut_scales a f) (keep_scales a) = run_ops (ops_of a) f.
Proof.
  intros a f. rewrite cut_scales_run. unfold ops_of.
  set (X := if a_cross a then [OCross] else []). set (Y := match a_pairs a with [] => [] | p => [OScales [] p] end).
  set (Z := map (fun b => OIndices (fst b) (snd b)) (a_bins a)).
  set (U := match a_keep3 a with [] => [] | c => [OScales c []] end).
  set (V := map (fun k => OScale (fst k) (fst (snd k)) (snd (snd k))) (a_keep1 a)).
  replace (X ++ Y ++ Z ++ U ++ V) with ((X ++ Y ++ Z) ++ (U ++ V)) by now rewrite <- !app_assoc.
  rewrite (run_ops_app (X ++ Y ++ Z)). destruct (run_ops (X ++ Y ++ Z) f) as [g | e]; cbn [bind]; [apply keep_scales_run | reflexivity].
Qed.
Lemma ops_of_label : forall a, Forall label_op (ops_of a).
Proof.
  intro a. unfold ops_of. repeat (apply Forall_app; split).
  - destruct (a_cross a); repeat constructor.
  - destruct (a_pairs a); repeat constructor.
  - apply Forall_forall. intros o Ho. apply in_map_iff in Ho as (x & <- & _). exact I.
  - destruct (a_keep3 a); repeat constructor.
  - apply Forall_forall. intros o Ho. apply in_map_iff in Ho as (x & <- & _). exact I.
Qed.

(** ** The whole run *)
Lemma setup_cuts_inv : forall c stats a f f', setup_cuts c stats a f = Ok f' ->
  exists l lc f1, stats = Some l /\ mapr (custom_tag c) l = Ok lc /\ run_ops (ops_of a) f = Ok f1 /\ choose_data_sets lc f1 = Ok f'.
Proof.
  intros c stats a f f' H. unfold setup_cuts in H. apply bind_ok in H as (f0 & H0 & H). apply bind_ok in H as (f1 & H1 & H).
  destruct stats as [l |]; [| discriminate H]. apply bind_ok in H as (lc & Hl & H).
  exists l, lc, f1. split; [reflexivity |]. split; [exact Hl |]. split; [| exact H].
  rewrite <- cuts_run, H0. exact H1.
Qed.

Lemma make_file_plain : forall sp o, make_file sp o None = Ok (mkFile sp o None None).
Proof. reflexivity. Qed.

Lemma run_aligned : forall sets a f f1 f2 g g1, wf_file f -> wf_file g ->
  points g = filter (chosen_b sets) (points f) ->
  run_ops (ops_of a) f = Ok f1 -> choose_data_sets sets f1 = Ok f2 -> run_ops (ops_of a) g = Ok g1 ->
  wf_file f2 /\ wf_file g1 /\ points g1 = points f2.
Proof.
  intros sets a f f1 f2 g g1 Wf Wg E H1 H2 H3.
  destruct (run_ops_cut _ f f1 Wf H1) as (W1 & _). destruct (run_ops_cut _ g g1 Wg H3) as (Wg1 & _).
  destruct (choose_spec sets f1 f2 W1 H2) as (W2 & _ & K & _).
  split; [exact W2 |]. split; [exact Wg1 |]. rewrite (keeps_filter (chosen_b sets) f1 f2 W1 K).
  exact (ops_align (ops_of a) (fun n => mem (lower n) (map lower sets)) f g f1 g1 (ops_of_label a) Wf Wg E H1 H3).
Qed.
