(** The covariance of a new file, and the file's data vector. *)
From Verif Require Import Base OptModel TpModel TpSpec TpFacts TpFacts2 TpFacts3.
From Coq Require Import ZArith List Sorting.Sorted.
Import ListNotations.

(** ** Sections *)
Lemma sum_nat_app : forall a b, sum_nat (a ++ b) = (sum_nat a + sum_nat b)%nat.
Proof. induction a as [| x a IH]; intro b; cbn; [reflexivity |]. unfold sum_nat in *. cbn. rewrite IH. lia. Qed.
Lemma starts_nth : forall lens s k len, nth_error lens k = Some len ->
  nth_error (starts_from s lens) k = Some (s + sum_nat (firstn k lens))%nat.
Proof.
  induction lens as [| l t IH]; intros s k len H; [destruct k; discriminate H |].
  destruct k as [| k]; cbn [nth_error firstn] in *.
  - cbn. destruct t; cbn; f_equal; lia.
  - destruct t as [| l' t']; [destruct k; discriminate H |].
    change (nth_error (s :: starts_from (l + s) (l' :: t')) (S k) = Some (s + sum_nat (l :: firstn k (l' :: t')))%nat).
    cbn [nth_error]. rewrite (IH (l + s)%nat k len H). f_equal. unfold sum_nat. cbn. lia.
Qed.
Lemma ends_last : forall lens e, lens <> [] -> last (ends_from e lens) 0%nat = (e + sum_nat lens)%nat.
Proof.
  induction lens as [| l t IH]; intros e H; [congruence |]. destruct t as [| l' t'].
  - cbn. lia.
  - change (ends_from e (l :: l' :: t')) with ((e + l)%nat :: ends_from (e + l) (l' :: t')).
    change (last ((e + l)%nat :: ends_from (e + l) (l' :: t')) 0%nat) with (last (ends_from (e + l) (l' :: t')) 0%nat).
    rewrite IH by discriminate. unfold sum_nat. cbn. lia.
Qed.
Lemma index_of_ok : forall x l i, index_of x l = Ok i -> nth_error l i = Some x /\ forall j, (j < i)%nat -> nth_error l j <> Some x.
Proof.
  induction l as [| y l IH]; intros i H; cbn in H; [discriminate H |].
  destruct (String.eqb_spec x y) as [-> | N].
  - injection H as <-. split; [reflexivity |]. intros j Hj. lia.
  - apply bind_ok in H as (k & Ek & H). injection H as <-. destruct (IH k Ek) as (A & B). split; [exact A |].
    intros [| j] Hj; cbn; [congruence |]. apply B. lia.
Qed.
Lemma index_of_in : forall x l, In x l -> exists i, index_of x l = Ok i.
Proof.
  induction l as [| y l IH]; intro H; [easy |]. cbn. destruct (String.eqb_spec x y) as [-> | N]; [eauto |].
  destruct H as [-> | H]; [easy |]. destruct (IH H) as (i & ->). cbn. eauto.
Qed.
Lemma section_fun : forall names lens n s l s' l', NoDup names ->
  section_of names lens n s l -> section_of names lens n s' l' -> s = s' /\ l = l'.
Proof.
  intros names lens n s l s' l' ND (k & A & B & ->) (k' & A' & B' & ->).
  assert (k = k').
  { apply (proj1 (NoDup_nth_error names) ND); [apply nth_error_Some; congruence | congruence]. }
  subst k'. split; [reflexivity | congruence].
Qed.
Lemma list_eqb_eq : forall a b, list_eqb a b = true <-> a = b.
Proof.
  unfold list_eqb. induction a as [| x a IH]; intros [| y b]; cbn; split; intro H; try discriminate; auto.
  - apply andb_true_iff in H as (L & H). cbn in H. apply andb_true_iff in H as (E & H). apply String.eqb_eq in E. subst y.
    f_equal. apply IH. now rewrite L, H.
  - injection H as <- <-. rewrite String.eqb_refl, Nat.eqb_refl. cbn.
    clear IH. induction a as [| z a IH]; cbn; [reflexivity |]. now rewrite String.eqb_refl.
Qed.

(** ** The block copy *)
Lemma row_other : forall cov ri li si inds sj out i j, (i < si \/ si + li <= i)%nat ->
  block_row cov ri li si inds sj out i j = out i j.
Proof.
  induction inds as [| [rj lj] t IH]; intros sj out i j H; cbn; [reflexivity |]. rewrite IH by exact H.
  unfold put_block. destruct (Nat.leb_spec si i), (Nat.ltb_spec i (si + li)); cbn; try reflexivity. lia.
Qed.
Lemma row_left : forall cov ri li si inds sj out i j, (j < sj)%nat -> block_row cov ri li si inds sj out i j = out i j.
Proof.
  induction inds as [| [rj lj] t IH]; intros sj out i j H; cbn; [reflexivity |]. rewrite IH by lia.
  unfold put_block. destruct (Nat.leb_spec sj j); [lia |]. now rewrite andb_false_r.
Qed.
Lemma row_in : forall cov ri li si inds sj out i q rj lj j,
  (i < li)%nat -> nth_error inds q = Some (rj, lj) -> (j < lj)%nat ->
  block_row cov ri li si inds sj out (si + i) (sj + (sum_nat (firstn q (map snd inds)) + j)) = cov (ri + i)%nat (rj + j)%nat.
Proof.
  induction inds as [| [r l] t IH]; intros sj out i q rj lj j Hi Hq Hj; [destruct q; discriminate Hq |].
  destruct q as [| q]; cbn [nth_error] in Hq.
  - injection Hq as -> ->. cbn [block_row map firstn]. cbn [sum_nat fold_right]. cbn [Nat.add]. rewrite row_left by lia.
    unfold put_block.
    destruct (Nat.leb_spec si (si + i)); [| lia]. destruct (Nat.ltb_spec (si + i) (si + li)); [| lia].
    destruct (Nat.leb_spec sj (sj + j)); [| lia]. destruct (Nat.ltb_spec (sj + j) (sj + lj)); [| lia]. cbn.
    f_equal; lia.
  - cbn [block_row]. cbn [map snd firstn]. unfold sum_nat. cbn [fold_right]. fold (sum_nat (firstn q (map snd t))).
    replace (sj + (l + sum_nat (firstn q (map snd t)) + j))%nat with ((sj + l) + (sum_nat (firstn q (map snd t)) + j))%nat by lia.
    exact (IH (sj + l)%nat _ i q rj lj j Hi Hq Hj).
Qed.
Lemma rows_above : forall cov all rows si out i j, (i < si)%nat -> block_rows cov all rows si out i j = out i j.
Proof.
  induction rows as [| [r l] t IH]; intros si out i j H; cbn; [reflexivity |]. rewrite IH by lia. apply row_other. lia.
Qed.
Lemma rows_in : forall cov all rows si out p ri li q rj lj i j,
  nth_error rows p = Some (ri, li) -> nth_error all q = Some (rj, lj) -> (i < li)%nat -> (j < lj)%nat ->
  block_rows cov all rows si out (si + (sum_nat (firstn p (map snd rows)) + i)) (sum_nat (firstn q (map snd all)) + j)
  = cov (ri + i)%nat (rj + j)%nat.
Proof.
  induction rows as [| [r l] t IH]; intros si out p ri li q rj lj i j Hp Hq Hi Hj; [destruct p; discriminate Hp |].
  destruct p as [| p]; cbn [nth_error] in Hp.
  - injection Hp as -> ->. cbn [block_rows map firstn]. cbn [sum_nat fold_right]. cbn [Nat.add]. rewrite rows_above by lia.
    pose proof (row_in cov ri li si all 0 out i q rj lj j Hi Hq Hj) as E. exact E.
  - cbn [block_rows map snd firstn]. unfold sum_nat. cbn [fold_right].
    fold (sum_nat (firstn p (map snd t))). fold (sum_nat (firstn q (map snd all))).
    replace (si + (l + sum_nat (firstn p (map snd t)) + i))%nat with ((si + l) + (sum_nat (firstn p (map snd t)) + i))%nat by lia.
    exact (IH (si + l)%nat _ p ri li q rj lj i j Hp Hq Hi Hj).
Qed.

(** ** get_cov_start *)
Definition section_at (ci : covinfo) (name : string) : res (nat * nat) :=
  bind (index_of name (ci_names ci)) (fun i =>
  bind (item i (ci_starts ci)) (fun st => bind (item i (ci_lengths ci)) (fun len => Ok (st, len)))).
Lemma item_ok : forall {A} i (l : list A) x, item i l = Ok x <-> nth_error l i = Some x.
Proof. intros A i l x. unfold item. destruct (nth_error l i); split; congruence. Qed.
Lemma section_at_ok : forall names lens cov n st len,
  section_at (new_covinfo names lens cov) n = Ok (st, len) -> section_of names lens n st len.
Proof.
  intros names lens cov n st len H. unfold section_at in H. cbn in H.
  apply bind_ok in H as (i & Ei & H). apply bind_ok in H as (s & Es & H). apply bind_ok in H as (l & El & H).
  injection H as <- <-. apply item_ok in Es, El. apply index_of_ok in Ei as (Ei & _).
  exists i. rewrite (starts_nth lens 0 i l El) in Es. cbn in Es. split; [exact Ei |]. split; [exact El | congruence].
Qed.
Lemma section_at_in : forall names lens cov n, length names = length lens -> In n names ->
  exists q, section_at (new_covinfo names lens cov) n = Ok q.
Proof.
  intros names lens cov n L H. destruct (index_of_in n names H) as (i & Ei). unfold section_at. cbn. rewrite Ei. cbn.
  apply index_of_ok in Ei as (Ei & _).
  destruct (nth_error lens i) as [l |] eqn:El.
  - unfold item. rewrite (starts_nth lens 0 i l El), El. cbn. eauto.
  - exfalso. apply nth_error_None in El. assert (i < length names)%nat by (apply nth_error_Some; congruence). lia.
Qed.

Lemma cov_start_spec : forall sp nobs names lens cov m,
  length names = length lens -> NoDup names -> sum_nat lens = m_n cov ->
  get_cov_start sp nobs (new_covinfo names lens cov) = Ok m ->
  exists lens', Forall2 (fun n l => exists st, section_of names lens n st l) (names_list sp nobs) lens' /\
    m_n m = sum_nat lens' /\
    forall p q n1 n2 s1 l1 s2 l2 i j,
      nth_error (names_list sp nobs) p = Some n1 -> nth_error (names_list sp nobs) q = Some n2 ->
      section_of names lens n1 s1 l1 -> section_of names lens n2 s2 l2 -> (i < l1)%nat -> (j < l2)%nat ->
      m_at m (sum_nat (firstn p lens') + i) (sum_nat (firstn q lens') + j) = m_at cov (s1 + i) (s2 + j).
Proof.
  intros sp nobs names lens cov m L ND S H. unfold get_cov_start in H. cbn [ci_names ci_lengths ci_starts ci_cov new_covinfo] in H.
  destruct (list_eqb names (names_list sp nobs)) eqn:E.
  - apply list_eqb_eq in E. injection H as <-. rewrite <- E. exists lens. split; [| split].
    + assert (G : forall k n, nth_error names k = Some n -> exists st l, nth_error lens k = Some l /\ section_of names lens n st l).
      { intros k n Hk. destruct (nth_error lens k) as [l |] eqn:El.
        - exists (sum_nat (firstn k lens)), l. split; [reflexivity |]. exists k. auto.
        - apply nth_error_None in El. assert (k < length names)%nat by (apply nth_error_Some; congruence). lia. }
      clear -L G. assert (Q : forall ns ls, length ns = length ls ->
          (forall k n, nth_error ns k = Some n -> exists st l, nth_error ls k = Some l /\ section_of names lens n st l) ->
          Forall2 (fun n l => exists st, section_of names lens n st l) ns ls).
      { induction ns as [| n ns IH]; intros [| l ls] Ln Hn; cbn in Ln; try discriminate; constructor.
        - destruct (Hn 0%nat n eq_refl) as (st & l' & El & Hs). cbn in El. injection El as <-. eauto.
        - apply IH; [now injection Ln |]. intros k n' Hk. exact (Hn (S k) n' Hk). }
      now apply Q.
    + now symmetry.
    + intros p q n1 n2 s1 l1 s2 l2 i j Hp Hq H1 H2 Hi Hj.
      assert (A1 : forall k n s l, nth_error names k = Some n -> section_of names lens n s l -> s = sum_nat (firstn k lens)).
      { intros k n s l Hk (k' & A & B & ->). assert (k = k') as ->; [| reflexivity].
        apply (proj1 (NoDup_nth_error names) ND); [apply nth_error_Some; congruence | congruence]. }
      now rewrite (A1 p n1 s1 l1 Hp H1), (A1 q n2 s2 l2 Hq H2).
  - apply bind_ok in H as (ends & _ & H). destruct (Nat.eqb (last ends 0%nat) (m_n cov)); [| discriminate H].
    apply bind_ok in H as (inds & Ei & H). injection H as <-. cbn [m_n m_at].
    change (mapr (section_at (new_covinfo names lens cov)) (names_list sp nobs) = Ok inds) in Ei.
    apply mapr_ok in Ei. exists (map snd inds). split; [| split].
    + clear - Ei. induction Ei as [| n [st l] ns inds E _ IH]; cbn; constructor; [| exact IH].
      exists st. exact (section_at_ok _ _ _ _ _ _ E).
    + reflexivity.
    + intros p q n1 n2 s1 l1 s2 l2 i j Hp Hq H1 H2 Hi Hj.
      assert (G : forall k n s l, nth_error (names_list sp nobs) k = Some n -> section_of names lens n s l -> nth_error inds k = Some (s, l)).
      { intros k n s l Hk Hs. clear - Ei Hk Hs ND. revert k Hk. induction Ei as [| n0 [st l0] ns inds E _ IH]; intros k Hk; [destruct k; discriminate Hk |].
        destruct k as [| k]; cbn in *; [| now apply IH]. injection Hk as ->.
        destruct (section_fun names lens n st l0 s l ND) as (-> & ->); [exact (section_at_ok _ _ _ _ _ _ E) | exact Hs | reflexivity]. }
      exact (rows_in (m_at cov) inds inds 0 (fun _ _ => 0) p s1 l1 q s2 l2 i j (G p n1 s1 l1 Hp H1) (G q n2 s2 l2 Hq H2) Hi Hj).
Qed.

Lemma cov_start_total : forall sp nobs names lens cov,
  length names = length lens -> names <> [] -> sum_nat lens = m_n cov ->
  (forall n, In n (names_list sp nobs) -> In n names) ->
  exists m, get_cov_start sp nobs (new_covinfo names lens cov) = Ok m.
Proof.
  intros sp nobs names lens cov L NE S I. unfold get_cov_start. cbn [ci_names ci_lengths ci_starts ci_cov new_covinfo].
  destruct (list_eqb names (names_list sp nobs)); [eauto |].
  assert (LN : (1 <= length names)%nat) by (destruct names; [congruence | cbn; lia]).
  unfold cov_ends. replace (Nat.max 1 (length names)) with (length lens) by lia.
  rewrite Nat.leb_refl, firstn_all. cbn [bind].
  rewrite ends_last by (intro Q; subst lens; cbn in L; lia). cbn [Nat.add]. rewrite S, Nat.eqb_refl.
  destruct (mapr_total (section_at (new_covinfo names lens cov)) (names_list sp nobs)) as (inds & Ei).
  { intros n Hn. apply section_at_in; auto. }
  unfold section_at in Ei. cbn [ci_names ci_lengths ci_starts new_covinfo] in Ei. rewrite Ei. cbn. eauto.
Qed.

(** ** A file made from measurements is well formed *)

Lemma bin_pairs_fold : forall l acc p, (In p acc \/ In p l) ->
  In p (fold_left (fun acc p => if existsb (pair_eqb p) acc then acc else acc ++ [p]) l acc).
Proof.
  induction l as [| q l IH]; intros acc p H; cbn; [now destruct H |].
  apply IH. destruct H as [H | [-> | H]]; [left | left | now right].
  - destruct (existsb (pair_eqb q) acc); [exact H | apply in_or_app; now left].
  - destruct (existsb (pair_eqb p) acc) eqn:E; [| apply in_or_app; right; now left].
    apply existsb_exists in E as (r & Hr & Er). apply pair_eqb_eq in Er. now subst r.
Qed.
Lemma raw_wf : forall s, raw_sp s -> wf_sp s.
Proof.
  intros s (A & B & C & D & E & F). constructor; try assumption; [now rewrite F |].
  intros p Hp. rewrite E. unfold bin_pairs. apply bin_pairs_fold. now right.
Qed.
Lemma skipn_length_le : forall {A} (l : list A) st len, (st + len <= length l)%nat -> length (firstn len (skipn st l)) = len.
Proof. intros A l st len H. rewrite firstn_length, skipn_length. lia. Qed.
Lemma section_range : forall names lens n st len, section_of names lens n st len -> (st + len <= sum_nat lens)%nat.
Proof.
  intros names lens n st len (k & _ & B & ->). clear names n. revert k B.
  induction lens as [| l t IH]; intros [| k] B; cbn in B; try discriminate.
  - injection B as ->. unfold sum_nat. cbn. lia.
  - cbn [firstn]. specialize (IH k B). unfold sum_nat in *. cbn. lia.
Qed.


Lemma set_error_ok : forall names lens cov s s', NoDup names -> sum_nat lens = m_n cov -> raw_sp s -> measured names lens s ->
  set_error (new_covinfo names lens cov) s = Ok s' ->
  wf_sp s' /\ sp_name s' = sp_name s /\ sp_points s' = sp_points s /\ sp_val s' = sp_val s.
Proof.
  intros names lens cov s s' ND S Rw (st & Hs) H. unfold set_error in H. apply bind_ok in H as (e & Ee & H). injection H as <-.
  split; [| auto]. pose proof (raw_wf s Rw) as [W1 W2 W3 W4 W5 W6]. constructor; cbn; auto.
  intros e0 [= <-]. unfold get_error in Ee. apply bind_ok in Ee as (i & Ei & Ee). cbn in Ei.
  apply bind_ok in Ee as (st' & Es & Ee). apply bind_ok in Ee as (len & El & Ee). injection Ee as <-.
  assert (Hs' : section_of names lens (sp_name s) st' len).
  { apply (section_at_ok names lens cov). unfold section_at. cbn [ci_names ci_starts ci_lengths new_covinfo] in *. rewrite Ei. cbn [bind]. rewrite Es. cbn [bind]. now rewrite El. }
  destruct (section_fun names lens _ _ _ _ _ ND Hs Hs') as (<- & <-).
  rewrite map_length. apply skipn_length_le. unfold diagonal. rewrite map_length, seq_length. cbn.
  rewrite <- S. exact (section_range _ _ _ _ _ Hs).
Qed.

Lemma names_sections : forall sp nobs names lens lens', NoDup names ->
  Forall (measured names lens) sp -> Forall wf_op (match nobs with None => [] | Some o => o end) ->
  Forall (counted names lens) (match nobs with None => [] | Some o => o end) ->
  Forall2 (fun n l => exists st, section_of names lens n st l) (names_list sp nobs) lens' ->
  lens' = map (fun s => length (sp_val s)) sp ++ map (fun o => length (concat (op_nobs o))) (match nobs with None => [] | Some o => o end).
Proof.
  intros sp nobs names lens lens' ND M _ C F. unfold names_list in F.
  replace (match nobs with None => [] | Some o => map op_name o end) with (map op_name (match nobs with None => [] | Some o => o end)) in F by (destruct nobs; reflexivity).
  revert lens' F. induction M as [| s sp (st & Hs) _ IH]; intros lens' F.
  - cbn in *. revert lens' F. induction C as [| o l (st & Ho) _ IH]; intros lens' F; inversion F as [| ? len' ? ? (st' & E) F']; subst; cbn; [reflexivity |].
    rewrite <- (IH _ F'). f_equal. now destruct (section_fun _ _ _ _ _ _ _ ND E Ho).
  - cbn in F. inversion F as [| ? len' ? ? (st' & E) F']; subst. cbn. rewrite <- (IH _ F'). f_equal.
    now destruct (section_fun _ _ _ _ _ _ _ ND E Hs).
Qed.

Lemma make_file_wf : forall sp obs names lens cov f,
  length names = length lens -> NoDup names -> sum_nat lens = m_n cov ->
  Forall raw_sp sp -> Forall wf_op obs -> Forall (measured names lens) sp -> Forall (counted names lens) obs ->
  make_file sp (Some obs) (Some (new_covinfo names lens cov)) = Ok f ->
  wf_file f /\ map sp_name (f_spectra f) = map sp_name sp /\ points f = flat_map sp_points sp ++ flat_map op_points obs /\
  values f = flat_map sp_val sp ++ flat_map (fun o => concat (op_nobs o)) obs /\ f_nobs f = Some obs /\
  exists m, f_cov f = Some m /\ get_cov_start sp (Some obs) (new_covinfo names lens cov) = Ok m.
Proof.
  intros sp obs names lens cov f L ND S Rw Wo M C H. unfold make_file in H.
  apply bind_ok in H as (m & Em & H). apply bind_ok in H as (sp' & Es & H). injection H as <-.
  apply mapr_ok in Es.
  assert (G : Forall wf_sp sp' /\ map sp_name sp' = map sp_name sp /\ flat_map sp_points sp' = flat_map sp_points sp /\
              flat_map sp_val sp' = flat_map sp_val sp).
  { clear Em. induction Es as [| s s' sp sp' E _ IH]; cbn; [auto |].
    inversion Rw; inversion M; subst. destruct IH as (I1 & I2 & I3 & I4); auto.
    destruct (set_error_ok names lens cov s s') as (J1 & J2 & J3 & J4); auto.
    rewrite I2, I3, I4, J2, J3, J4. auto. }
  destruct G as (G1 & G2 & G3 & G4).
  split; [| split; [exact G2 |]; split; [unfold points; cbn; now rewrite G3 |]; split; [unfold values; cbn; now rewrite G4 |]; split; [reflexivity | exists m; split; [reflexivity | exact Em]]].
  constructor; [exact G1 | exact Wo |]. cbn [f_cov f_nobs]. intros m0 [= <-]. split; [| discriminate].
  unfold points; cbn. rewrite G3, app_length.
  destruct (cov_start_spec sp (Some obs) names lens cov m L ND S Em) as (lens' & F & Hn & _). rewrite Hn.
  rewrite (names_sections sp (Some obs) names lens lens' ND M Wo C F). rewrite sum_nat_app. f_equal.
  - clear - Rw. induction Rw as [| s l Hs _ IH]; cbn; [reflexivity |]. unfold sum_nat in *. cbn. rewrite IH, app_length.
    now rewrite (sp_points_length s (raw_wf s Hs)).
  - clear - Wo. induction Wo as [| o l Ho _ IH]; cbn; [reflexivity |]. unfold sum_nat in *. cbn. rewrite IH, app_length.
    now rewrite (proj1 (op_points_length o Ho)).
Qed.

(** ** The data vector *)
Lemma flatten_rect : forall l, (forall x y, In x l -> In y l -> length x = length y) -> flatten l = Ok (concat l).
Proof.
  intros [| x l] H; [reflexivity |]. unfold flatten.
  replace (forallb (fun y => Nat.eqb (length y) (length x)) l) with true; [reflexivity |].
  symmetry. apply forallb_forall. intros y Hy. apply Nat.eqb_eq. apply H; [now right | now left].
Qed.
Lemma mean_vector_values : forall f, wf_file f -> f_spectra f <> [] \/ obs_list f <> [] -> mean_vector f = Ok (values f).
Proof.
  intros f W NE. unfold mean_vector.
  assert (E : mapr (fun o => flatten (op_nobs o)) (obs_list f) = Ok (map (fun o => concat (op_nobs o)) (obs_list f))).
  { pose proof (wf_obs f W) as Wo. clear - Wo. induction Wo as [| o l Ho _ IH]; cbn; [reflexivity |].
    rewrite flatten_rect by apply (wf_rect o Ho). cbn. rewrite IH. reflexivity. }
  rewrite E. cbn [bind].
  assert (V : concat (map sp_val (f_spectra f) ++ map (fun o => concat (op_nobs o)) (obs_list f)) = values f).
  { unfold values. rewrite concat_app, !flat_map_concat_map. reflexivity. }
  destruct (map sp_val (f_spectra f) ++ map (fun o => concat (op_nobs o)) (obs_list f)) eqn:EL; [| now rewrite V].
  exfalso. apply app_eq_nil in EL as (A & B). apply map_eq_nil in A, B. destruct NE; contradiction.
Qed.
Lemma mean_vector_inv : forall f v, wf_file f -> mean_vector f = Ok v -> v = values f.
Proof.
  intros f v W H. destruct (f_spectra f) as [| s sp] eqn:Es.
  - destruct (obs_list f) as [| o l] eqn:Eo.
    + unfold mean_vector in H. rewrite Es, Eo in H. discriminate H.
    + rewrite mean_vector_values in H by (auto; right; congruence). congruence.
  - rewrite mean_vector_values in H by (auto; left; congruence). congruence.
Qed.
