(** What each cut keeps. *)
From Verif Require Import Base OptModel TpModel TpSpec TpFacts.
From Coq Require Import ZArith List Sorting.Sorted.
Import ListNotations.

(** ** The columns of a spectrum as one list of rows *)
Definition rows (s : spectrum) : list (Z * Z * Z * R) :=
  combine (combine (combine (sp_b1 s) (sp_b2 s)) (sp_abin s)) (sp_ang s).
Definition row_pair (q : Z * Z * Z * R) : Z * Z := fst (fst q).
Definition row_ang (q : Z * Z * Z * R) : R := snd q.

Lemma map_fst_combine : forall {A B} (l : list A) (l' : list B), length l = length l' -> map fst (combine l l') = l.
Proof.
  induction l as [| x l IH]; intros [| y l'] H; cbn in *; try discriminate; auto.
  injection H as H. now rewrite (IH l' H).
Qed.
Lemma map_snd_combine : forall {A B} (l : list A) (l' : list B), length l = length l' -> map snd (combine l l') = l'.
Proof.
  induction l as [| x l IH]; intros [| y l'] H; cbn in *; try discriminate; auto.
  injection H as H. now rewrite (IH l' H).
Qed.
Lemma combine_map2 : forall {A B C} (g : A -> B) (h : A -> C) l, combine (map g l) (map h l) = map (fun x => (g x, h x)) l.
Proof. induction l as [| x l IH]; cbn; [reflexivity | now rewrite IH]. Qed.

Lemma rows_pairs : forall s, wf_sp s -> combine (sp_b1 s) (sp_b2 s) = map row_pair (rows s).
Proof.
  intros s [H1 H2 H3 H4 _ _]. unfold rows, row_pair.
  rewrite <- (map_map (@fst (Z * Z * Z) R) (@fst (Z * Z) Z)).
  rewrite map_fst_combine, map_fst_combine; [reflexivity | rewrite ?combine_length; lia ..].
Qed.
Lemma rows_ang : forall s, wf_sp s -> sp_ang s = map row_ang (rows s).
Proof.
  intros s [H1 H2 H3 H4 _ _]. unfold rows, row_ang. rewrite map_snd_combine; [reflexivity | rewrite ?combine_length; lia].
Qed.
Lemma rows_length : forall s, wf_sp s -> length (rows s) = length (sp_val s).
Proof. intros s [H1 H2 H3 H4 _ _]. unfold rows. rewrite !combine_length. lia. Qed.
Definition row_point (n : string) (q : Z * Z * Z * R) : point := let '(b1, b2, ab, an) := q in P2 n b1 b2 ab an.
Lemma rows_points : forall s, sp_points s = map (row_point (sp_name s)) (rows s).
Proof. reflexivity. Qed.
Lemma ones_rows : forall s, wf_sp s -> ones (length (sp_val s)) = map (fun _ => true) (rows s).
Proof.
  intros s W. rewrite <- (rows_length s W). unfold ones. induction (rows s) as [| q l IH]; cbn; [reflexivity | now rewrite IH].
Qed.

(** ** A cut given by a predicate on labels and values *)
Definition pred_mask (Pb : point -> R -> bool) (s : spectrum) : list bool :=
  map (fun pv => Pb (fst pv) (snd pv)) (combine (sp_points s) (sp_val s)).

Lemma pred_mask_length : forall Pb s, wf_sp s -> length (pred_mask Pb s) = length (sp_val s).
Proof. intros Pb s W. unfold pred_mask. rewrite map_length, combine_length, sp_points_length by exact W. lia. Qed.

Lemma combine_app : forall {A B} (a a' : list A) (b b' : list B),
  length a = length b -> combine (a ++ a') (b ++ b') = combine a b ++ combine a' b'.
Proof.
  induction a as [| x a IH]; intros a' [| y b] b' H; cbn in *; try discriminate; auto.
  injection H as H. now rewrite (IH a' b b' H).
Qed.

Lemma pred_concat : forall Pb sp, Forall wf_sp sp ->
  concat (map (pred_mask Pb) sp) = map (fun pv => Pb (fst pv) (snd pv)) (combine (flat_map sp_points sp) (flat_map sp_val sp)).
Proof.
  induction 1 as [| s l W _ IH]; cbn; [reflexivity |].
  rewrite combine_app by now apply sp_points_length. now rewrite map_app, <- IH.
Qed.

Lemma nth_combine : forall {A B} (a : list A) (b : list B) k x y,
  nth_error a k = Some x -> nth_error b k = Some y -> nth_error (combine a b) k = Some (x, y).
Proof.
  induction a as [| x0 a IH]; intros [| y0 b] [| k] x y Ha Hb; cbn in *; try discriminate; [| now apply IH].
  now injection Ha as ->; injection Hb as ->.
Qed.

Lemma P1_points : forall l p, In p (flat_map op_points l) -> exists n k i, p = P1 n k i.
Proof.
  intros l p H. apply in_flat_map in H as (o & _ & H). unfold op_points in H. revert H. generalize 0%nat.
  induction (op_nobs o) as [| b t IH]; intros k H; cbn in H; [easy |].
  apply in_app_or in H as [H | H]; [| now apply (IH (S k))].
  unfold bin_points in H. apply in_map_iff in H as (i & <- & _). eauto.
Qed.
Lemma P2_points : forall l p, In p (flat_map sp_points l) -> exists n b1 b2 ab an, p = P2 n b1 b2 ab an.
Proof.
  intros l p H. apply in_flat_map in H as (s & _ & H). unfold sp_points in H.
  apply in_map_iff in H as ([[[b1 b2] ab] an] & <- & _). eauto 6.
Qed.

Lemma all_P1 : forall (Pb : point -> R -> bool), (forall n k i v, Pb (P1 n k i) v = true) ->
  forall l vs, length l = length vs -> Forall (fun p => exists n k i, p = P1 n k i) l ->
  ones (length l) = map (fun pv => Pb (fst pv) (snd pv)) (combine l vs).
Proof.
  intros Pb H1. induction l as [| p t IH]; intros [| v vs] L Q; cbn in *; try discriminate; [reflexivity |].
  inversion Q as [| ? ? (n & k & i & ->) Q']; subst. rewrite H1. injection L as L.
  unfold ones in *. cbn. now rewrite (IH vs L Q').
Qed.

Lemma cut_with_pred : forall (Pb : point -> R -> bool) step f f',
  wf_file f ->
  (forall s q, In s (f_spectra f) -> wf_sp s -> step s = Ok q -> fst q = pred_mask Pb s) ->
  good_step step ->
  (forall n k i v, Pb (P1 n k i) v = true) ->
  cut_with step f = Ok f' ->
  wf_file f' /\ keeps (fun p v => Pb p v = true) f f'.
Proof.
  intros Pb step f f' W HP G H1 H.
  destruct (cut_with_spec step f f' W G H) as (l & El & W' & L & _ & _ & C). split; [exact W' |].
  pose proof (wf_spectra f W) as Ws.
  assert (EM : concat (map fst l) = concat (map (pred_mask Pb) (f_spectra f))).
  { f_equal. apply mapr_ok in El. revert HP Ws. clear - El.
    induction El as [| s q sp l E _ IH]; intros HP Ws; cbn; [reflexivity |].
    inversion Ws; subst. rewrite (HP s q (or_introl eq_refl) H1 E), IH; auto.
    intros s0 q0 I0. apply HP. now right. }
  pose proof (points_values f W) as PV.
  set (full := (concat (map fst l) ++ ones (length (flat_map op_points (obs_list f))))%list) in *.
  assert (EF : full = map (fun pv => Pb (fst pv) (snd pv)) (combine (points f) (values f))).
  { unfold full, points, values. rewrite EM, pred_concat by exact Ws.
    assert (Lsp : length (flat_map sp_points (f_spectra f)) = length (flat_map sp_val (f_spectra f))).
    { clear - Ws. induction Ws as [| s t Hs _ IH]; cbn; [reflexivity |].
      now rewrite !app_length, IH, sp_points_length. }
    rewrite combine_app by exact Lsp. rewrite map_app. f_equal.
    assert (Lop := proj2 (obs_masks_spec f (wf_obs f W))).
    assert (Q : Forall (fun p => exists n k i, p = P1 n k i) (flat_map op_points (obs_list f))).
    { apply Forall_forall. intros p. apply P1_points. }
    now apply all_P1. }
  apply (keeps_of_mask _ full).
  - rewrite EF, map_length, combine_length. lia.
  - intros k b p v Hb Hp Hv. rewrite EF in Hb.
    rewrite (map_nth_error _ _ _ (nth_combine _ _ k p v Hp Hv)) in Hb. cbn in Hb. injection Hb as <-. reflexivity.
  - exact C.
Qed.

Lemma keeps_iff : forall P Q f f', (forall p v, P p v <-> Q p v) -> keeps P f f' -> keeps Q f f'.
Proof.
  intros P Q f f' H (K & C & I). exists K. split; [exact C |]. intros k p v Hp Hv. rewrite (I k p v Hp Hv). apply H.
Qed.

Lemma masked_good : forall mk, good_step (fun s => masked (mk s) s).
Proof. intros mk s q W H. destruct (masked_cuts _ _ _ W H) as (-> & C). exact C. Qed.

(** ** mask_bad *)
Definition bad_b (bad : R) (p : point) (v : R) : bool :=
  match p with P2 _ _ _ _ _ => if Req_EM_T v bad then false else true | P1 _ _ _ => true end.
Lemma bad_mask : forall bad s, wf_sp s ->
  map (fun v => if Req_EM_T v bad then false else true) (sp_val s) = pred_mask (bad_b bad) s.
Proof.
  intros bad s W. unfold pred_mask. pose proof (sp_points_length s W) as L. unfold sp_points in *. fold (rows s) in *.
  rewrite map_length in L. revert L. generalize (sp_val s).
  induction (rows s) as [| [[[b1 b2] ab] an] l IH]; intros [| v vs] L; cbn in *; try discriminate; [reflexivity |].
  injection L as L. now rewrite (IH vs L).
Qed.
Lemma mask_bad_spec : forall bad f f', wf_file f -> mask_bad bad f = Ok f' ->
  wf_file f' /\ keeps (fun p v => bad_b bad p v = true) f f'.
Proof.
  intros bad f f' W H. unfold mask_bad in H. refine (cut_with_pred _ _ _ _ W _ _ _ H); [| apply masked_good | easy].
  intros s q _ Ws Hq. destruct (masked_cuts _ _ _ Ws Hq) as (-> & _). now apply bad_mask.
Qed.
Lemma mask_bad_total : forall bad f, wf_file f -> exists f', mask_bad bad f = Ok f'.
Proof.
  intros bad f W. apply cut_with_total; [exact W | apply masked_good |].
  intros s Hs. pose proof (proj1 (Forall_forall _ _) (wf_spectra f W) s Hs) as Ws.
  apply masked_total; [exact Ws |]. now rewrite map_length.
Qed.

(** Masks that only look at the labels. *)
Lemma label_mask : forall (g : point -> bool) s, wf_sp s ->
  map (fun q => g (row_point (sp_name s) q)) (rows s) = pred_mask (fun p _ => g p) s.
Proof.
  intros g s W. unfold pred_mask. pose proof (rows_length s W) as L. rewrite rows_points.
  revert L. generalize (sp_val s). induction (rows s) as [| q l IH]; intros [| v vs] L; cbn in *; try discriminate; [reflexivity |].
  injection L as L. now rewrite (IH vs L).
Qed.

(** ** mask_cross *)
Definition cross_b (p : point) : bool := match p with P2 _ b1 b2 _ _ => Z.eqb b1 b2 | P1 _ _ _ => true end.
Lemma auto_bins_mask : forall s, wf_sp s -> auto_bins s = pred_mask (fun p _ => cross_b p) s.
Proof.
  intros s W. rewrite <- (label_mask cross_b s W). unfold auto_bins. rewrite (rows_pairs s W), map_map.
  apply map_ext. intros [[[b1 b2] ab] an]. reflexivity.
Qed.
Lemma mask_cross_spec : forall f f', wf_file f -> mask_cross f = Ok f' ->
  wf_file f' /\ keeps (fun p _ => cross_b p = true) f f'.
Proof.
  intros f f' W H. unfold mask_cross in H.
  refine (cut_with_pred (fun p _ => cross_b p) _ _ _ W _ _ _ H); [| apply masked_good | easy].
  intros s q _ Ws Hq. destruct (masked_cuts _ _ _ Ws Hq) as (-> & _). now apply auto_bins_mask.
Qed.
Lemma mask_cross_total : forall f, wf_file f -> exists f', mask_cross f = Ok f'.
Proof.
  intros f W. apply cut_with_total; [exact W | apply masked_good |].
  intros s Hs. pose proof (proj1 (Forall_forall _ _) (wf_spectra f W) s Hs) as Ws.
  apply masked_total; [exact Ws |]. rewrite (auto_bins_mask s Ws). now apply pred_mask_length.
Qed.

(** ** mask_scales *)
Definition scales_b (cuts : list (triple * (R * R))) (bins : list triple) (p : point) : bool :=
  match p with
  | P2 n b1 b2 _ a =>
      negb (existsb (triple_eqb (n, b1, b2)) bins) &&
      match assoc3 (n, b1, b2) cuts with None => true | Some (lo, hi) => negb (outside lo hi a) end
  | P1 _ _ _ => true
  end.
Lemma pair_eqb_eq : forall p q, pair_eqb p q = true <-> p = q.
Proof.
  intros [a b] [c d]. unfold pair_eqb. cbn. rewrite andb_true_iff, !Z.eqb_eq. split; [intros (-> & ->); reflexivity | intros [= -> ->]; auto].
Qed.
Lemma scales_fold : forall cuts bins s, wf_sp s -> forall todo done,
  fold_left (scales_step cuts bins s) todo
    (map (fun q => if existsb (pair_eqb (row_pair q)) done then scales_b cuts bins (row_point (sp_name s) q) else true) (rows s))
  = map (fun q => if existsb (pair_eqb (row_pair q)) (todo ++ done) then scales_b cuts bins (row_point (sp_name s) q) else true) (rows s).
Proof.
  intros cuts bins s W. induction todo as [| p todo IH]; intro done; cbn [fold_left app]; [reflexivity |].
  transitivity (map (fun q => if existsb (pair_eqb (row_pair q)) (todo ++ p :: done)
      then scales_b cuts bins (row_point (sp_name s) q) else true) (rows s)).
  - rewrite <- IH. f_equal. unfold scales_step, clear, at_pair_outside, at_pair.
    rewrite (rows_pairs s W), (rows_ang s W), !map_map.
    destruct (existsb (triple_eqb (sp_name s, fst p, snd p)) bins) eqn:Eb.
    + rewrite combine_map2, map_map. apply map_ext. intros [[[b1 b2] ab] an].
      cbn -[existsb]. unfold row_pair; cbn -[existsb].
      cbn [existsb]. unfold pair_eqb at 2. cbn [fst snd].
      destruct (Z.eqb b1 (fst p) && Z.eqb b2 (snd p))%bool eqn:Ep; cbn [orb negb andb].
      * apply andb_true_iff in Ep as (E1 & E2). apply Z.eqb_eq in E1, E2. subst b1 b2. rewrite Eb. cbn. now rewrite andb_false_r.
      * now rewrite andb_true_r.
    + destruct (assoc3 (sp_name s, fst p, snd p) cuts) as [[lo hi] |] eqn:Ec.
      * rewrite !combine_map2, map_map, combine_map2, map_map. apply map_ext. intros [[[b1 b2] ab] an].
        unfold row_pair, row_ang; cbn [fst snd existsb].
        unfold pair_eqb at 2. cbn [fst snd].
        destruct (Z.eqb b1 (fst p) && Z.eqb b2 (snd p))%bool eqn:Ep; cbn [orb negb andb].
        -- apply andb_true_iff in Ep as (E1 & E2). apply Z.eqb_eq in E1, E2. subst b1 b2. cbn [row_point scales_b]. rewrite Eb, Ec.
           cbn [negb andb]. destruct (existsb _ done); [now destruct (outside lo hi an) | reflexivity].
        -- now rewrite andb_true_r.
      * apply map_ext. intros [[[b1 b2] ab] an]. unfold row_pair; cbn [fst snd existsb].
        unfold pair_eqb at 2. cbn [fst snd].
        destruct (Z.eqb b1 (fst p) && Z.eqb b2 (snd p))%bool eqn:Ep; cbn [orb]; [| reflexivity].
        apply andb_true_iff in Ep as (E1 & E2). apply Z.eqb_eq in E1, E2. subst b1 b2. cbn [row_point scales_b]. rewrite Eb, Ec.
        now destruct (existsb _ done).
  - apply map_ext. intro q. cbn [existsb]. rewrite !existsb_app. cbn [existsb].
    replace (existsb (pair_eqb (row_pair q)) todo || (pair_eqb (row_pair q) p || existsb (pair_eqb (row_pair q)) done))%bool
      with (pair_eqb (row_pair q) p || (existsb (pair_eqb (row_pair q)) todo || existsb (pair_eqb (row_pair q)) done))%bool;
      [reflexivity |].
    destruct (pair_eqb (row_pair q) p), (existsb (pair_eqb (row_pair q)) todo); reflexivity.
Qed.
Lemma scales_mask_pred : forall cuts bins s, wf_sp s ->
  scales_mask cuts bins s = pred_mask (fun p _ => scales_b cuts bins p) s.
Proof.
  intros cuts bins s W. rewrite <- (label_mask (scales_b cuts bins) s W). unfold scales_mask.
  rewrite (ones_rows s W). pose proof (scales_fold cuts bins s W (sp_pairs s) []) as F. cbn [existsb] in F.
  rewrite F, app_nil_r. apply map_ext_in. intros q Hq.
  assert (In (row_pair q) (sp_pairs s)).
  { apply (wf_pairs s W). rewrite (rows_pairs s W). now apply in_map. }
  replace (existsb (pair_eqb (row_pair q)) (sp_pairs s)) with true; [reflexivity |].
  symmetry. apply existsb_exists. exists (row_pair q). split; [assumption |]. now apply pair_eqb_eq.
Qed.
Lemma mask_scales_spec : forall cuts bins f f', wf_file f -> mask_scales cuts bins f = Ok f' ->
  wf_file f' /\ keeps (fun p _ => scales_b cuts bins p = true) f f'.
Proof.
  intros cuts bins f f' W H. unfold mask_scales in H.
  refine (cut_with_pred (fun p _ => scales_b cuts bins p) _ _ _ W _ _ _ H); [| apply masked_good | easy].
  intros s q _ Ws Hq. destruct (masked_cuts _ _ _ Ws Hq) as (-> & _). now apply scales_mask_pred.
Qed.
Lemma mask_scales_total : forall cuts bins f, wf_file f -> exists f', mask_scales cuts bins f = Ok f'.
Proof.
  intros cuts bins f W. apply cut_with_total; [exact W | apply masked_good |].
  intros s Hs. pose proof (proj1 (Forall_forall _ _) (wf_spectra f W) s Hs) as Ws.
  apply masked_total; [exact Ws |]. rewrite (scales_mask_pred cuts bins s Ws). now apply pred_mask_length.
Qed.

(** ** mask_scale *)
Definition scale_hit (tag n : string) : bool := String.eqb tag "all" || contains n tag.
Definition scale_b (tag : string) (lo hi : R) (p : point) : bool :=
  match p with
  | P2 n _ _ _ a =>
      negb (scale_hit tag n) || ((if Rlt_dec lo a then true else false) && (if Rlt_dec a hi then true else false))
  | P1 _ _ _ => true
  end.
Lemma scale_step_pred : forall tag lo hi s q, wf_sp s ->
  (if negb (String.eqb tag "all") && negb (contains (sp_name s) tag)
   then Ok (ones (length (sp_val s)), s) else masked (scale_mask lo hi s) s) = Ok q ->
  fst q = pred_mask (fun p _ => scale_b tag lo hi p) s /\ cuts_sp (fst q) s (snd q).
Proof.
  intros tag lo hi s q W H. rewrite <- negb_orb in H. fold (scale_hit tag (sp_name s)) in H.
  rewrite <- (label_mask (scale_b tag lo hi) s W).
  destruct (scale_hit tag (sp_name s)) eqn:E; cbn [negb] in H.
  - destruct (masked_cuts _ _ _ W H) as (Eq & C). rewrite Eq in *. split; [| exact C].
    unfold scale_mask. rewrite (rows_ang s W), map_map. apply map_ext. intros [[[b1 b2] ab] an]. cbn. now rewrite E.
  - injection H as <-. cbn. split; [| now apply ones_cuts]. rewrite (ones_rows s W).
    apply map_ext. intros [[[b1 b2] ab] an]. cbn. now rewrite E.
Qed.
Lemma mask_scale_spec : forall tag lo hi f f', wf_file f -> mask_scale tag lo hi f = Ok f' ->
  wf_file f' /\ keeps (fun p _ => scale_b tag lo hi p = true) f f'.
Proof.
  intros tag lo hi f f' W H. unfold mask_scale in H.
  refine (cut_with_pred (fun p _ => scale_b tag lo hi p) _ _ _ W _ _ _ H); [| | easy].
  - intros s q _ Ws Hq. now apply scale_step_pred in Hq as (-> & _).
  - intros s q Ws Hq. now apply scale_step_pred in Hq.
Qed.
Lemma mask_scale_total : forall tag lo hi f, wf_file f -> exists f', mask_scale tag lo hi f = Ok f'.
Proof.
  intros tag lo hi f W. apply cut_with_total; [exact W | |].
  - intros s q Ws Hq. now apply scale_step_pred in Hq.
  - intros s Hs. pose proof (proj1 (Forall_forall _ _) (wf_spectra f W) s Hs) as Ws.
    destruct (negb _ && negb _); [eauto |].
    apply masked_total; [exact Ws |]. unfold scale_mask. rewrite map_length. now apply wf_an.
Qed.
