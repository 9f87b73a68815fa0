(** The options of the scale-cuts module. *)
From Verif Require Import Base OptModel TpModel TpSpec TpFacts TpFacts2 TpFacts3 TpFacts4 TpFacts5.
From Coq Require Import ZArith Ascii List.
Import ListNotations.

Lemma assoc_assign : forall {V} t t' (v : V) d, assoc t (assign t' v d) = if String.eqb t t' then Some v else assoc t d.
Proof.
  induction d as [| [k x] d IH]; cbn.
  - reflexivity.
  - destruct (String.eqb_spec t' k) as [-> | N]; cbn.
    + destruct (String.eqb_spec t k); reflexivity.
    + destruct (String.eqb_spec t k) as [-> | M]; [| exact IH]. destruct (String.eqb_spec k t'); [congruence | reflexivity].
Qed.
Lemma triple_eqb_eq : forall a b : triple, triple_eqb a b = true <-> a = b.
Proof.
  intros [[n x] y] [[m u] v]. unfold triple_eqb. rewrite !Bool.andb_true_iff, String.eqb_eq, !Z.eqb_eq.
  split; [intros ((-> & ->) & ->); reflexivity | intro E; injection E as -> -> ->; auto].
Qed.
Lemma triple_eqb_refl : forall a, triple_eqb a a = true.
Proof. intro a. now apply triple_eqb_eq. Qed.
Lemma triple_dec : forall a b : triple, {triple_eqb a b = true /\ a = b} + {triple_eqb a b = false /\ a <> b}.
Proof.
  intros a b. destruct (triple_eqb a b) eqn:E.
  - left. split; [reflexivity | now apply triple_eqb_eq].
  - right. split; [reflexivity |]. intro Q. apply triple_eqb_eq in Q. congruence.
Qed.
Lemma assoc3_assign3 : forall {V} t t' (v : V) d, assoc3 t (assign3 t' v d) = if triple_eqb t t' then Some v else assoc3 t d.
Proof.
  induction d as [| [k x] d IH]; cbn.
  - reflexivity.
  - destruct (triple_dec t' k) as [(E & ->) | (E & N)]; rewrite E; cbn.
    + destruct (triple_eqb t k); reflexivity.
    + destruct (triple_dec t k) as [(E' & ->) | (E' & M)]; rewrite E'; [| exact IH].
      destruct (triple_dec k t') as [(E2 & ->) | (E2 & _)]; rewrite E2; [congruence | reflexivity].
Qed.

Lemma foldr_app : forall {A S} (f : S -> A -> res S) l l' s, foldr f (l ++ l') s = bind (foldr f l s) (foldr f l').
Proof.
  induction l as [| x l IH]; intros l' s; cbn; [reflexivity |]. destruct (f s x); cbn; [apply IH | reflexivity].
Qed.
Lemma latest_snoc : forall (P : string -> Prop) items key value, P key -> latest P (items ++ [(key, value)]) value.
Proof. intros P items key value H. exists items, key, []. split; [reflexivity |]. split; [exact H |]. intros kv []. Qed.
Lemma latest_skip : forall (P : string -> Prop) items kv v, ~ P (fst kv) -> latest P items v -> latest P (items ++ [kv]) v.
Proof.
  intros P items kv v N (pre & key & post & -> & H & F). exists pre, key, (post ++ [kv]). split; [now rewrite <- app_assoc |].
  split; [exact H |]. intros x Hx. apply in_app_or in Hx as [Hx | [<- | []]]; [now apply F | exact N].
Qed.
Lemma nowhere_snoc : forall (P : string -> Prop) items kv, nowhere P items -> ~ P (fst kv) -> nowhere P (items ++ [kv]).
Proof. intros P items kv H N x Hx. apply in_app_or in Hx as [Hx | [<- | []]]; [now apply H | exact N]. Qed.

Section Opts.
Variable to_int : string -> option Z.
Variable to_float : string -> option R.
Variable c : names_cfg.
Notation make := (make_args to_int to_float c).

Lemma make_snoc : forall items kv, make (items ++ [kv]) = bind (make items) (fun st => parse_item to_int to_float c st kv).
Proof.
  intros items kv. unfold make_args. rewrite foldr_app. destruct (foldr _ items _); cbn; [| reflexivity].
  now destruct (parse_item to_int to_float c a kv).
Qed.

Lemma item_ok : forall {A} i (l : list A) x, item i l = Ok x <-> nth_error l i = Some x.
Proof. intros A i l x. unfold item. destruct (nth_error l i); split; congruence. Qed.
Lemma label_ok : forall k t, label_of c k = Ok t <-> assoc k (lab_dict c) = Some t.
Proof. intros k t. unfold label_of. destruct (assoc k (lab_dict c)); split; congruence. Qed.
Lemma int_ok : forall s z, int_ to_int s = Ok z <-> to_int s = Some z.
Proof. intros s z. unfold int_. destruct (to_int s); split; congruence. Qed.
Lemma float_ok : forall s z, float_ to_float s = Ok z <-> to_float s = Some z.
Proof. intros s z. unfold float_. destruct (to_float s); split; congruence. Qed.
Lemma two_floats_ok : forall v r, two_floats to_float v = Ok r -> limits to_float v r.
Proof.
  intros v r H. unfold two_floats in H. apply bind_ok in H as (a & Ha & H). apply bind_ok in H as (lo & Hlo & H).
  apply bind_ok in H as (b & Hb & H). apply bind_ok in H as (hi & Hhi & H). injection H as <-.
  exists a, b. rewrite <- !item_ok, <- !float_ok. auto.
Qed.
Lemma mapr_forall2 : forall {A B} (f : A -> res B) l r, mapr f l = Ok r -> Forall2 (fun x y => f x = Ok y) l r.
Proof.
  induction l as [| x l IH]; intros r H; cbn in H; [injection H as <-; constructor |].
  apply bind_ok in H as (y & Hy & H). apply bind_ok in H as (ys & Hys & H). injection H as <-. constructor; auto.
Qed.

(** One option. *)
Inductive effect (st st' : option (list string) * scargs) (key value : string) : Prop :=
| EStats : key = "use_stats"%string -> st' = (Some (words value), snd st) -> effect st st' key value
| ECross : key = "cut_cross"%string ->
    st' = (fst st, mkArgs (negb (String.eqb value "")) (a_pairs (snd st)) (a_bins (snd st)) (a_keep3 (snd st)) (a_keep1 (snd st))) ->
    effect st st' key value
| EPair t l : pair_key c t key -> Forall2 (fun w p => one_pair to_int t w = Ok p) (words value) l ->
    st' = (fst st, mkArgs (a_cross (snd st)) (a_pairs (snd st) ++ l) (a_bins (snd st)) (a_keep3 (snd st)) (a_keep1 (snd st))) ->
    effect st st' key value
| EBin t l : bin_key c t key -> Forall2 (fun w z => to_int w = Some z) (words value) l ->
    st' = (fst st, mkArgs (a_cross (snd st)) (a_pairs (snd st)) (assign t l (a_bins (snd st))) (a_keep3 (snd st)) (a_keep1 (snd st))) ->
    effect st st' key value
| EKeep3 t r : keep3_key to_int c t key -> limits to_float value r ->
    st' = (fst st, mkArgs (a_cross (snd st)) (a_pairs (snd st)) (a_bins (snd st)) (assign3 t r (a_keep3 (snd st))) (a_keep1 (snd st))) ->
    effect st st' key value
| EKeep1 t r : keep1_key c t key -> limits to_float value r ->
    st' = (fst st, mkArgs (a_cross (snd st)) (a_pairs (snd st)) (a_bins (snd st)) (a_keep3 (snd st)) (assign t r (a_keep1 (snd st)))) ->
    effect st st' key value
| ENone : key <> "use_stats"%string -> key <> "cut_cross"%string -> contains "cut_pair" key = false -> contains "cut_bin" key = false ->
    (contains "keep_ang" key = true -> length (split_on "_"%char key) = 4%nat) -> st' = st -> effect st st' key value.

Lemma parse_effect : forall st st' key value, parse_item to_int to_float c st (key, value) = Ok st' -> effect st st' key value.
Proof.
  intros [stats a] st' key value H. unfold parse_item in H.
  destruct (String.eqb_spec key "use_stats") as [-> | N1]; [injection H as <-; now apply EStats |].
  destruct (String.eqb_spec key "cut_cross") as [-> | N2]; [injection H as <-; now apply ECross |].
  destruct (contains "cut_pair" key) eqn:E1.
  { apply bind_ok in H as (k & Hk & H). apply bind_ok in H as (t & Ht & H). apply bind_ok in H as (l & Hl & H). injection H as <-.
    apply item_ok in Hk. apply label_ok in Ht. apply (EPair _ _ _ _ t l); [split; [exact E1 | now exists k] | now apply mapr_forall2 | reflexivity]. }
  destruct (contains "cut_bin" key) eqn:E2.
  { apply bind_ok in H as (k & Hk & H). apply bind_ok in H as (t & Ht & H). apply bind_ok in H as (l & Hl & H). injection H as <-.
    apply item_ok in Hk. apply label_ok in Ht. apply (EBin _ _ _ _ t l); [split; [exact E2 | split; [exact E1 | now exists k]] | | reflexivity].
    apply mapr_forall2 in Hl. clear - Hl. induction Hl; constructor; [now apply int_ok | assumption]. }
  destruct (contains "keep_ang" key) eqn:E3; cbn [andb] in H.
  2: { injection H as <-. apply ENone; auto. congruence. }
  destruct (Nat.ltb_spec 4 (length (split_on "_"%char key))) as [L | L].
  { apply bind_ok in H as (k & Hk & H). apply bind_ok in H as (t & Ht & H).
    apply bind_ok in H as (x & Hx & H). apply bind_ok in H as (i & Hi & H).
    apply bind_ok in H as (y & Hy & H). apply bind_ok in H as (j & Hj & H).
    apply bind_ok in H as (r & Hr & H). injection H as <-.
    apply item_ok in Hk, Hx, Hy. apply label_ok in Ht. apply int_ok in Hi, Hj. apply two_floats_ok in Hr.
    apply (EKeep3 _ _ _ _ (t, i, j) r); [| exact Hr | reflexivity]. repeat (split; [assumption |]). cbn [fst snd].
    split; [now exists k |]. now exists x, y. }
  destruct (Nat.ltb_spec (length (split_on "_"%char key)) 4) as [L' | L'].
  { apply bind_ok in H as (k & Hk & H). apply bind_ok in H as (t & Ht & H). apply bind_ok in H as (r & Hr & H). injection H as <-.
    apply item_ok in Hk. apply label_ok in Ht. apply two_floats_ok in Hr.
    apply (EKeep1 _ _ _ _ t r); [| exact Hr | reflexivity]. repeat (split; [assumption |]). now exists k. }
  injection H as <-. apply ENone; auto. intros _. lia.
Qed.

Lemma stat_unique : forall key t t', stat_of c key t -> stat_of c key t' -> t = t'.
Proof. intros key t t' (s & A & B) (s' & A' & B'). congruence. Qed.
Lemma keep3_unique : forall key t t', keep3_key to_int c t key -> keep3_key to_int c t' key -> t = t'.
Proof.
  intros key [[n x] y] [[n' x'] y'] (_ & _ & _ & _ & S & a & b & A1 & A2 & A3 & A4) (_ & _ & _ & _ & S' & a' & b' & B1 & B2 & B3 & B4).
  cbn in *. pose proof (stat_unique key n n' S S'). congruence.
Qed.

Lemma one_pair_ok : forall t w p, one_pair to_int t w = Ok p <->
  exists x y i j, nth_error (split_on "+"%char w) 0 = Some x /\ nth_error (split_on "+"%char w) 1 = Some y /\
    to_int x = Some i /\ to_int y = Some j /\ p = (t, i, j).
Proof.
  intros t w p. unfold one_pair. split.
  - intro H. apply bind_ok in H as (x & Hx & H). apply bind_ok in H as (i & Hi & H).
    apply bind_ok in H as (y & Hy & H). apply bind_ok in H as (j & Hj & H). injection H as <-.
    apply item_ok in Hx, Hy. apply int_ok in Hi, Hj. now exists x, y, i, j.
  - intros (x & y & i & j & Hx & Hy & Hi & Hj & ->). apply item_ok in Hx, Hy. apply int_ok in Hi, Hj.
    rewrite Hx. cbn [bind]. rewrite Hi. cbn [bind]. rewrite Hy. cbn [bind]. now rewrite Hj.
Qed.

Lemma dict_step : forall {V} (P : string -> string -> Prop) (Q : string -> V -> Prop) items kv (d d' : list (string * V)),
  (forall t, match assoc t d with Some l => exists v, latest (P t) items v /\ Q v l | None => nowhere (P t) items end) ->
  ((d' = d /\ forall t, ~ P t (fst kv)) \/
   (exists t l, d' = assign t l d /\ P t (fst kv) /\ Q (snd kv) l /\ forall t', P t' (fst kv) -> t' = t)) ->
  forall t, match assoc t d' with Some l => exists v, latest (P t) (items ++ [kv]) v /\ Q v l | None => nowhere (P t) (items ++ [kv]) end.
Proof.
  intros V P Q items [key value] d d' H [(-> & N) | (t0 & l & -> & HP & HQ & U)] t.
  - specialize (H t). specialize (N t). destruct (assoc t d) as [l |].
    + destruct H as (v & L & HQ). exists v. split; [now apply latest_skip | exact HQ].
    + now apply nowhere_snoc.
  - rewrite assoc_assign. destruct (String.eqb_spec t t0) as [-> | N].
    + exists value. split; [now apply latest_snoc | exact HQ].
    + assert (N' : ~ P t (fst (key, value))) by (intro Hp; apply N, U; exact Hp).
      specialize (H t). destruct (assoc t d) as [l' |].
      * destruct H as (v & L & HQ'). exists v. split; [now apply latest_skip | exact HQ'].
      * now apply nowhere_snoc.
Qed.
Lemma dict3_step : forall {V} (P : triple -> string -> Prop) (Q : string -> V -> Prop) items kv (d d' : list (triple * V)),
  (forall t, match assoc3 t d with Some l => exists v, latest (P t) items v /\ Q v l | None => nowhere (P t) items end) ->
  ((d' = d /\ forall t, ~ P t (fst kv)) \/
   (exists t l, d' = assign3 t l d /\ P t (fst kv) /\ Q (snd kv) l /\ forall t', P t' (fst kv) -> t' = t)) ->
  forall t, match assoc3 t d' with Some l => exists v, latest (P t) (items ++ [kv]) v /\ Q v l | None => nowhere (P t) (items ++ [kv]) end.
Proof.
  intros V P Q items [key value] d d' H [(-> & N) | (t0 & l & -> & HP & HQ & U)] t.
  - specialize (H t). specialize (N t). destruct (assoc3 t d) as [l |].
    + destruct H as (v & L & HQ). exists v. split; [now apply latest_skip | exact HQ].
    + now apply nowhere_snoc.
  - rewrite assoc3_assign3. destruct (triple_dec t t0) as [(E & ->) | (E & N)]; rewrite E.
    + exists value. split; [now apply latest_snoc | exact HQ].
    + assert (N' : ~ P t (fst (key, value))) by (intro Hp; apply N, U; exact Hp).
      specialize (H t). destruct (assoc3 t d) as [l' |].
      * destruct H as (v & L & HQ'). exists v. split; [now apply latest_skip | exact HQ'].
      * now apply nowhere_snoc.
Qed.
Lemma latest_snoc_iff : forall (P : string -> Prop) items key value v, P key -> latest P (items ++ [(key, value)]) v -> v = value.
Proof.
  intros P items key value v H (pre & k & post & E & _ & F). destruct post as [| z post].
  - apply app_inj_tail in E as (_ & E). congruence.
  - exfalso. assert (L : last (items ++ [(key, value)]) z = last (pre ++ (k, v) :: z :: post) z) by now rewrite E.
    rewrite last_last in L.
    assert (I : In (key, value) (z :: post)).
    { rewrite L. clear. induction pre as [| x pre IH]; cbn in *.
      - destruct post as [| y post]; [now left |]. right.
        change (In (last (y :: post) z) (y :: post)). clear. revert y. induction post as [| w post IH]; intro y; [now left | right; apply IH].
      - destruct (pre ++ (k, v) :: z :: post) eqn:Q; [destruct pre; discriminate Q | exact IH]. }
    apply (F _ I). exact H.
Qed.
Lemma latest_skip_iff : forall (P : string -> Prop) items kv v, ~ P (fst kv) -> latest P (items ++ [kv]) v -> latest P items v.
Proof.
  intros P items kv v N (pre & k & post & E & H & F). destruct post as [| z post].
  - apply app_inj_tail in E as (_ & E). subst kv. now destruct N.
  - destruct (@exists_last _ (z :: post)) as (p' & z' & Ez); [discriminate |]. rewrite Ez in *.
    exists pre, k, p'. replace (pre ++ (k, v) :: p' ++ [z']) with ((pre ++ (k, v) :: p') ++ [z']) in E by now rewrite <- app_assoc.
    apply app_inj_tail in E as (-> & _). split; [reflexivity |]. split; [exact H |]. intros x Hx. apply F. apply in_or_app. now left.
Qed.

Ltac nokey := unfold not; intros; unfold bin_key, keep3_key, keep1_key, pair_key in *;
  repeat match goal with H : _ /\ _ |- _ => destruct H end; subst; try discriminate; try congruence; try lia.

Lemma make_means : forall items st, make items = Ok st -> means to_int to_float c items (fst st) (snd st).
Proof.
  intro items. induction items as [| kv items IH] using rev_ind; intros st H.
  - injection H as <-. constructor; cbn.
    + intros kv [].
    + split; [discriminate |]. intros (v & (pre & k & post & E & _) & _). destruct pre; discriminate E.
    + intros t i j. split; [easy |]. intros (key & value & w & x & y & [] & _).
    + intros t kv [].
    + intros t kv [].
    + intros t kv [].
  - rewrite make_snoc in H. apply bind_ok in H as (st0 & E0 & H). specialize (IH st0 E0). destruct IH as [I1 I2 I3 I4 I5 I6].
    destruct kv as [key value]. apply parse_effect in H.
    assert (K1 : forall st', effect st0 st' key value ->
      match fst st' with
      | Some l => exists v, latest (fun k => k = "use_stats"%string) (items ++ [(key, value)]) v /\ l = words v
      | None => nowhere (fun k => k = "use_stats"%string) (items ++ [(key, value)]) end).
    { intros st' He.
      assert (D : (key = "use_stats"%string /\ fst st' = Some (words value)) \/ (key <> "use_stats"%string /\ fst st' = fst st0)).
      { destruct He; subst; cbn [fst]; [left; auto | right; split; [discriminate | auto] | | | | | right; auto];
          right; (split; [| reflexivity]); intros ->; nokey. }
      destruct D as [(Ek & ->) | (Nk & ->)].
      - exists value. split; [now apply latest_snoc | reflexivity].
      - destruct (fst st0).
        + destruct I1 as (v & L & Ev). exists v. split; [now apply latest_skip | exact Ev].
        + now apply nowhere_snoc. }
    constructor.
    + now apply K1.
    + assert (D : (key = "cut_cross"%string /\ a_cross (snd st) = negb (String.eqb value "")) \/
                  (key <> "cut_cross"%string /\ a_cross (snd st) = a_cross (snd st0))).
      { destruct H; subst; cbn [snd a_cross]; [right; split; [discriminate | auto] | left; auto | | | | | right; auto];
          right; (split; [| reflexivity]); intros ->; nokey. }
      destruct D as [(Ek & ->) | (Nk & ->)].
      * split.
        -- intro Hn. exists value. split; [now apply latest_snoc |]. destruct (String.eqb_spec value ""); [discriminate Hn | assumption].
        -- intros (v & L & Nv). apply latest_snoc_iff in L; [| exact Ek]. subst v. now apply String.eqb_neq in Nv as ->.
      * rewrite I2. split; intros (v & L & Nv); exists v; (split; [| exact Nv]).
        -- now apply latest_skip.
        -- now apply latest_skip_iff in L.
    + intros t i j.
      assert (D : (a_pairs (snd st) = a_pairs (snd st0) /\ forall u, ~ pair_key c u key) \/
                  (exists u l, pair_key c u key /\ Forall2 (fun w p => one_pair to_int u w = Ok p) (words value) l /\
                     a_pairs (snd st) = a_pairs (snd st0) ++ l)).
      { destruct H; subst; cbn [snd a_pairs]; [left; split; [reflexivity | nokey] | left; split; [reflexivity | nokey] | right; eauto | | | | ];
          left; (split; [reflexivity | nokey]). }
      destruct D as [(-> & N) | (u & l & Hu & F & ->)].
      * rewrite I3. split; intros (k & v & w & x & y & Hin & Hk & R); exists k, v, w, x, y; (split; [| split; [exact Hk | exact R]]).
        -- apply in_or_app. now left.
        -- apply in_app_or in Hin as [Hin | [E | []]]; [exact Hin |]. injection E as <- <-. now destruct (N t).
      * rewrite in_app_iff, I3. split.
        -- intros [(k & v & w & x & y & Hin & R) | Hl].
           ++ exists k, v, w, x, y. split; [apply in_or_app; now left | exact R].
           ++ assert (Q : exists w, In w (words value) /\ one_pair to_int u w = Ok (t, i, j)).
              { clear - F Hl. induction F as [| w p ws l Hwp F IH]; [destruct Hl |]. destruct Hl as [-> | Hl].
                - exists w. split; [now left | exact Hwp].
                - destruct (IH Hl) as (w' & A & B). exists w'. split; [now right | exact B]. }
              destruct Q as (w & Hw & Ho). apply one_pair_ok in Ho as (x & y & i' & j' & A & B & C & D & E). injection E as -> -> ->.
              exists key, value, w, x, y. split; [apply in_or_app; right; now left |]. auto 10.
        -- intros (k & v & w & x & y & Hin & Hk & Hw & A & B & C & D). apply in_app_or in Hin as [Hin | [E | []]].
           ++ left. exists k, v, w, x, y. auto 10.
           ++ injection E as <- <-. right. assert (t = u) as -> by exact (stat_unique _ _ _ (proj2 Hk) (proj2 Hu)).
              assert (Ho : one_pair to_int u w = Ok (u, i, j)) by (apply one_pair_ok; exists x, y, i, j; auto).
              clear - F Hw Ho. induction F as [| w' p ws l Hwp F IH]; [destruct Hw |]. destruct Hw as [-> | Hw].
              ** left. congruence.
              ** right. now apply IH.
    + apply (dict_step (bin_key c) (fun v l => Forall2 (fun w z => to_int w = Some z) (words v) l) items (key, value) (a_bins (snd st0))); [exact I4 |]. cbn [fst snd].
      destruct H; subst; cbn [snd a_bins]; try (left; split; [reflexivity | nokey]; fail).
      right. exists t, l. split; [reflexivity |]. split; [assumption |]. split; [assumption |].
      intros t' Ht'. unfold bin_key in *. eapply stat_unique; [apply Ht' | apply H].
    + apply (dict3_step (keep3_key to_int c) (fun v r => limits to_float v r) items (key, value) (a_keep3 (snd st0))); [exact I5 |]. cbn [fst snd].
      destruct H; subst; cbn [snd a_keep3]; try (left; split; [reflexivity | nokey]; fail).
      * right. exists t, r. split; [reflexivity |]. split; [assumption |]. split; [assumption |].
        intros t' Ht'. eapply keep3_unique; eassumption.
      * left. split; [reflexivity |]. intros t (A & _ & _ & L & _). specialize (H3 A). lia.
    + apply (dict_step (keep1_key c) (fun v r => limits to_float v r) items (key, value) (a_keep1 (snd st0))); [exact I6 |]. cbn [fst snd].
      destruct H; subst; cbn [snd a_keep1]; try (left; split; [reflexivity | nokey]; fail).
      * right. exists t, r. split; [reflexivity |]. split; [assumption |]. split; [assumption |].
        intros t' Ht'. eapply stat_unique; [apply Ht' | apply H].
      * left. split; [reflexivity |]. intros t (A & _ & _ & L & _). specialize (H3 A). lia.
Qed.

(** An option with an unrecognised key has no effect. *)
Lemma ignored : forall pre kv post, fst kv <> "use_stats"%string -> fst kv <> "cut_cross"%string ->
  contains "cut_pair" (fst kv) = false -> contains "cut_bin" (fst kv) = false ->
  (contains "keep_ang" (fst kv) = true -> length (split_on "_"%char (fst kv)) = 4%nat) ->
  make (pre ++ kv :: post) = make (pre ++ post).
Proof.
  intros pre [key value] post N1 N2 E1 E2 E3. cbn [fst] in *. unfold make_args. rewrite !foldr_app.
  destruct (foldr _ pre _) as [[stats a] | e]; [| reflexivity]. cbn [bind foldr].
  enough (Q : parse_item to_int to_float c (stats, a) (key, value) = Ok (stats, a)) by now rewrite Q.
  unfold parse_item. apply String.eqb_neq in N1 as ->. apply String.eqb_neq in N2 as ->. rewrite E1, E2.
  destruct (contains "keep_ang" key); cbn [andb]; [| reflexivity]. rewrite (E3 eq_refl). reflexivity.
Qed.
End Opts.
