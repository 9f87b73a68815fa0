(** Proofs about options and the align_params dictionary. *)
From Verif Require Import Base Quad QuadFacts HodModel Dewiggle PkModel PkSpec PkFacts PkFacts4 PkExample Validate ConfSpec.
Open Scope string_scope.

Lemma pyval_eqb_eq a b : pyval_eqb a b = true <-> a = b.
Proof.
  destruct a, b; simpl; split; intro H; try discriminate; auto.
  - apply String.eqb_eq in H. now subst.
  - injection H as ->. apply String.eqb_refl.
  - apply Nat.eqb_eq in H. now subst.
  - injection H as ->. apply Nat.eqb_refl.
Qed.
Lemma py_in_In v l : py_in v l = true <-> In v l.
Proof.
  unfold py_in. rewrite existsb_exists. split.
  - intros (x & I & E). apply pyval_eqb_eq in E. now subst.
  - intro I. exists v. split; [exact I | now apply pyval_eqb_eq].
Qed.
Lemma check_ok l v w : check l v = Ok w <-> In v l /\ w = v.
Proof.
  unfold check. rewrite <- py_in_In. destruct (py_in v l); split; intro H; try discriminate.
  - injection H as ->. auto.
  - destruct H as [_ ->]. reflexivity.
  - destruct H. discriminate.
Qed.
Lemma check_err l v e : check l v = Err e <-> ~ In v l /\ e = "ValueError".
Proof.
  unfold check. rewrite <- py_in_In. destruct (py_in v l); split; intro H; try discriminate.
  - destruct H as [H _]. now destruct H.
  - injection H as <-. auto.
  - destruct H as [_ ->]. reflexivity.
Qed.

Lemma valid_iff c : In (cf_mode c) NONLINEAR_MODES -> In (cf_ingr c) VALID_HMCODE_INGREDIENTS ->
  (validate c = Ok tt <-> documented (cf_mode c) (cf_ingr c)).
Proof.
  destruct c as [m i]; simpl. intros M I.
  repeat destruct M as [<-|M]; try contradiction; repeat destruct I as [<-|I]; try contradiction;
    unfold documented, validate; simpl; split; intro H; try discriminate; try reflexivity;
    try (split; [auto 6|split; [auto 6|]]; intro Z; try discriminate; auto);
    destruct H as (_ & _ & H); specialize (H eq_refl); destruct H; discriminate.
Qed.
Lemma documented_in m i : documented m i -> In m NONLINEAR_MODES /\ In i VALID_HMCODE_INGREDIENTS.
Proof. intros (M & I & _). simpl. intuition (subst; auto). Qed.

Lemma new_conf_iff m i c :
  new_conf m i = Ok c <-> documented m i /\ c = {| cf_mode := m; cf_ingr := i |}.
Proof.
  unfold new_conf. destruct (check VALID_HMCODE_INGREDIENTS i) as [i'|e] eqn:CI; simpl.
  - apply check_ok in CI. destruct CI as [II ->].
    destruct (check NONLINEAR_MODES m) as [m'|e] eqn:CM; simpl.
    + apply check_ok in CM. destruct CM as [IM ->].
      pose proof (valid_iff {| cf_mode := m; cf_ingr := i |} IM II) as W. simpl in W.
      destruct (validate _) as [[]|e]; simpl; split.
      * intro H. injection H as <-. split; [now apply W|reflexivity].
      * intros [_ ->]. reflexivity.
      * discriminate.
      * intros [D _]. apply W in D. discriminate.
    + apply check_err in CM. split; [discriminate|]. intros [D _]. apply documented_in in D. tauto.
  - apply check_err in CI. split; [discriminate|]. intros [D _]. apply documented_in in D. tauto.
Qed.
Lemma new_conf_error m i e : new_conf m i = Err e -> e = "ValueError".
Proof.
  unfold new_conf. destruct (check VALID_HMCODE_INGREDIENTS i) eqn:CI; simpl.
  - destruct (check NONLINEAR_MODES m) eqn:CM; simpl.
    + destruct (validate _) eqn:E; simpl; [discriminate|]. intro H; injection H as <-.
      unfold validate in E. repeat destruct (_ && _)%bool in E; try discriminate; now injection E.
    + intro H; injection H as <-. apply check_err in CM. tauto.
  - intro H; injection H as <-. apply check_err in CI. tauto.
Qed.

Lemma assign_in c a c' : assign c a = Ok c' ->
  In (cf_mode c) NONLINEAR_MODES -> In (cf_ingr c) VALID_HMCODE_INGREDIENTS ->
  In (cf_mode c') NONLINEAR_MODES /\ In (cf_ingr c') VALID_HMCODE_INGREDIENTS.
Proof.
  intros H M I. destruct a as [v|v]; unfold assign in H.
  - destruct (check NONLINEAR_MODES v) eqn:C; [|discriminate]. apply check_ok in C.
    destruct C as [C ->]. injection H as <-. auto.
  - destruct (check VALID_HMCODE_INGREDIENTS v) eqn:C; [|discriminate]. apply check_ok in C.
    destruct C as [C ->]. injection H as <-. auto.
Qed.
Lemma assign_all_ok l : forall c c',
  In (cf_mode c) NONLINEAR_MODES -> In (cf_ingr c) VALID_HMCODE_INGREDIENTS ->
  assign_all c l = (c', Ok tt) -> documented (cf_mode c') (cf_ingr c').
Proof.
  induction l as [|a l IH]; simpl; intros c c' M I H.
  - injection H as <- V. now apply (valid_iff c).
  - destruct (assign c a) as [c1|e] eqn:A; [|discriminate].
    destruct (assign_in _ _ _ A M I). eapply IH; eauto.
Qed.
Lemma configured_documented c : configured c -> documented (cf_mode c) (cf_ingr c).
Proof.
  induction 1 as [m i c H|c l c' _ IH H].
  - apply new_conf_iff in H. destruct H as [D ->]. exact D.
  - destruct (documented_in _ _ IH). eapply assign_all_ok; eauto.
Qed.

(** The last assignment of each option wins in an accepted update. *)
Fixpoint last_mode (m : pyval) (l : list assignment) : pyval :=
  match l with [] => m | SetMode v :: l => last_mode v l | SetIngr _ :: l => last_mode m l end.
Fixpoint last_ingr (i : pyval) (l : list assignment) : pyval :=
  match l with [] => i | SetIngr v :: l => last_ingr v l | SetMode _ :: l => last_ingr i l end.
Lemma update_takes l : forall c c', assign_all c l = (c', Ok tt) ->
  c' = {| cf_mode := last_mode (cf_mode c) l; cf_ingr := last_ingr (cf_ingr c) l |}.
Proof.
  induction l as [|a l IH]; simpl; intros c c' H.
  - injection H as <- _. now destruct c.
  - destruct (assign c a) as [c1|e] eqn:A; [|discriminate]. apply IH in H. rewrite H.
    destruct a as [v|v]; unfold assign in A.
    + destruct (check NONLINEAR_MODES v) eqn:C; [|discriminate]. apply check_ok in C.
      destruct C as [_ ->]. injection A as <-. reflexivity.
    + destruct (check VALID_HMCODE_INGREDIENTS v) eqn:C; [|discriminate]. apply check_ok in C.
      destruct C as [_ ->]. injection A as <-. reflexivity.
Qed.

(** ** Spectra of accepted configurations are defined *)
Lemma pk_lin_good S : good_inputs S -> exists p, pk_lin S = Ok p.
Proof.
  intros (G & _ & K & _). unfold pk_lin.
  assert (D : a_rows (raw_plin S) = s_nz S /\ a_cols (raw_plin S) = s_nk S).
  { unfold raw_plin. unfold on_grid in G. destruct (s_plin S); simpl; auto. }
  destruct D as [D1 D2].
  destruct (is_hmcode (s_mode S) || s_dewiggle S).
  - unfold dewiggled. rewrite (guard_passes _ _ K). simpl. rewrite D2.
    unfold bcast. rewrite Nat.eqb_refl. simpl. rewrite D1, !Nat.eqb_refl. simpl. eauto.
  - simpl. rewrite D1, D2, !Nat.eqb_refl. simpl. eauto.
Qed.
Lemma pk_nl_good S : good_inputs S -> is_fortuna (s_mode S) || s_response S = true ->
  exists p, pk_nl S = Ok (Some p).
Proof.
  intros (_ & G & _) H. unfold pk_nl. rewrite H. unfold on_grid in G.
  destruct (s_pnl S) as [a|]; simpl.
  - destruct G as [-> ->]. rewrite !Nat.eqb_refl. simpl. eauto.
  - rewrite !Nat.eqb_refl. simpl. eauto.
Qed.
Lemma beta_good S : good_inputs S -> exists B, beta_nl S = Ok B.
Proof.
  intros (_ & _ & _ & _ & _ & H). unfold beta_nl. destruct (s_beta_nl S); [eauto|].
  destruct H as [H|[B H]]; [congruence|eauto].
Qed.
Lemma inl_good S : good_inputs S -> forall W1 W2 B, exists i, I_NL S W1 W2 B = Ok i.
Proof.
  intros (_ & _ & _ & M & _) W1 W2 B. unfold I_NL, trap_weights.
  destruct (Nat.leb_spec (s_nm S) 1); [lia|]. simpl. eauto.
Qed.

Definition allowed_conf (S : spectra) : Prop :=
  s_mode S = Hmcode -> s_ingr S = Mead2020 \/ s_ingr S = Mead2020Fb.

Ltac use H := let x := fresh "x" in let E := fresh "E" in destruct H as [x E]; rewrite E; clear E; cbn [bind].

Lemma mm_raw_good S : good_inputs S -> allowed_conf S -> exists r, power_spectrum_mm_raw S = Ok r.
Proof.
  intros G C. unfold power_spectrum_mm_raw. use (pk_lin_good S G).
  destruct (s_mode S) eqn:M.
  - use (beta_good S G).
    match goal with |- context [I_NL S ?a ?b ?c] => use (inl_good S G a b c) end. eauto.
  - destruct (C M) as [->| ->]; eauto.
  - eauto.
  - eauto.
Qed.
Lemma respond_good S r : good_inputs S -> allowed_conf S -> exists r', respond S r = Ok r'.
Proof.
  intros G C. unfold respond. destruct (s_response S) eqn:R; [|eauto].
  destruct (pk_nl_good S G) as [p E]; [rewrite R; apply orb_true_r|]. rewrite E. cbn [bind].
  use (mm_raw_good S G C). eauto.
Qed.
Lemma peff_good S : good_inputs S -> s_mode S = Fortuna -> exists p, peff_arr S = Ok p.
Proof.
  intros G M. unfold peff_arr, peff. rewrite M. cbn [is_fortuna].
  use (pk_lin_good S G). destruct (pk_nl_good S G) as [p E]; [rewrite M; reflexivity|].
  rewrite E. cbn [bind]. eauto.
Qed.

Ltac finish S G C :=
  repeat first
    [ apply (respond_good S _ G C)
    | progress (use (pk_lin_good S G))
    | progress (use (beta_good S G))
    | match goal with |- context [bind (I_NL S ?a ?b ?c) _] => use (inl_good S G a b c) end ].

Lemma all_good S : good_inputs S -> allowed_conf S ->
  (exists r, power_spectrum_mm S = Ok r) /\ (exists r, power_spectrum_gg S = Ok r) /\
  (exists r, power_spectrum_gm S = Ok r) /\ (exists r, power_spectrum_mi S = Ok r) /\
  (exists r, power_spectrum_ii S = Ok r) /\ (exists r, power_spectrum_gi S = Ok r).
Proof.
  intros G C. repeat split.
  - unfold power_spectrum_mm. destruct (s_response S) eqn:R; [|now apply mm_raw_good].
    destruct (pk_nl_good S G) as [p E]; [rewrite R; apply orb_true_r|]. rewrite E. cbn [bind]. eauto.
  - unfold power_spectrum_gg. use (pk_lin_good S G).
    assert (P : exists p, poisson_func (s_poisson S) (s_mass S) = Ok p) by apply G. use P.
    destruct (is_bnl (s_mode S)).
    + use (beta_good S G). use (inl_good S G (gal_profile S) (gal_profile S) x1). apply (respond_good S _ G C).
    + apply (respond_good S _ G C).
  - unfold power_spectrum_gm. use (pk_lin_good S G).
    destruct (is_bnl (s_mode S)).
    + use (beta_good S G). use (inl_good S G (gal_profile S) (matter_profile_2h S) x0). apply (respond_good S _ G C).
    + apply (respond_good S _ G C).
  - unfold power_spectrum_mi. destruct (s_mode S) eqn:M; cbn zeta; finish S G C.
    use (peff_good S G M). apply (respond_good S _ G C).
  - unfold power_spectrum_ii. destruct (s_mode S) eqn:M; cbn zeta; finish S G C.
    use (peff_good S G M). apply (respond_good S _ G C).
  - unfold power_spectrum_gi. destruct (s_mode S) eqn:M; cbn zeta; finish S G C.
    use (peff_good S G M). apply (respond_good S _ G C).
Qed.

Lemma configured_good c S : configured c ->
  s_mode S = mode_of (cf_mode c) -> s_ingr S = ingr_of (cf_ingr c) -> allowed_conf S.
Proof.
  intros H M I. apply configured_documented in H. destruct H as (HM & HI & HH).
  unfold allowed_conf. rewrite M, I. intro E.
  destruct HM as [Z|[Z|[Z|Z]]]; rewrite Z in E; try discriminate.
  destruct (HH Z) as [->| ->]; [right|left]; reflexivity.
Qed.

(** ** The align_params dictionary *)
Section Dict.
  Context {V : Type}.
  Lemma dget_dset (d : dict V) k v x :
    dget (dset d k v) x = if String.eqb k x then Some v else dget d x.
  Proof.
    induction d as [|[y w] d IH]; simpl.
    - reflexivity.
    - destruct (String.eqb y k) eqn:E; simpl.
      + apply String.eqb_eq in E. subst. now destruct (String.eqb k x).
      + rewrite IH. destruct (String.eqb y x) eqn:Y; [|reflexivity].
        apply String.eqb_eq in Y. subst. rewrite String.eqb_sym, E. reflexivity.
  Qed.
  Lemma dset_nil (d : dict V) k v : dset d k v <> [].
  Proof. destruct d as [|[y w] d]; simpl; [discriminate|]. destruct (String.eqb y k); discriminate. Qed.

  Variable fftlog : V.
  Notation align := (align fftlog).
  Notation aligns := (aligns fftlog).

  Lemma align_get (h : @heap V) r o k :
    dget (snd (align h r o)) k =
      match dget (entries fftlog o) k with Some v => Some v | None => dget (h r) k end.
  Proof.
    unfold align, dupdate, entries. cbn [snd fold_left fst]. rewrite !dget_dset. cbn [dget].
    repeat match goal with |- context [String.eqb ?a k] => destruct (String.eqb_spec a k); [subst; simpl; try reflexivity|] end;
      reflexivity.
  Qed.
  Lemma entries_none o k : dget (entries fftlog o) k = None <-> ~ In k own_keys.
  Proof.
    unfold entries, own_keys. cbn [dget].
    repeat match goal with |- context [String.eqb ?a k] => destruct (String.eqb_spec a k);
      [subst; split; [discriminate|intro H; exfalso; apply H; simpl; tauto]|] end.
    split; [|reflexivity]. intros _ H. simpl in H. intuition congruence.
  Qed.
  Lemma align_heap (h : @heap V) r o x :
    fst (align h r o) x = if Nat.eqb x r then snd (align h r o) else h x.
  Proof. reflexivity. Qed.

  (** Each computation sees its own six entries over the keys the caller put there. *)
  Lemma aligns_ok l : forall (h : @heap V),
    (forall i r o, nth_error l i = Some (r, o) ->
       exists d, nth_error (snd (aligns h l)) i = Some d /\
         forall k, dget d k = match dget (entries fftlog o) k with Some v => Some v | None => dget (h r) k end) /\
    (forall x k, ~ In k own_keys -> dget (fst (aligns h l) x) k = dget (h x) k) /\
    (forall x, ~ In x (map fst l) -> fst (aligns h l) x = h x).
  Proof.
    induction l as [|[r o] l IH]; intro h.
    - cbn [Validate.aligns fst snd]. repeat split; auto. intros [|i]; discriminate.
    - cbn [Validate.aligns]. destruct (align h r o) as [h1 d] eqn:A.
      destruct (IH h1) as (I1 & I2 & I3). destruct (aligns h1 l) as [h2 ds] eqn:L. cbn [fst snd] in *.
      assert (D : d = snd (align h r o)) by (rewrite A; reflexivity).
      assert (H1 : forall x, h1 x = if Nat.eqb x r then d else h x).
      { intro x. rewrite D, <- align_heap, A. reflexivity. }
      assert (K : forall x k, ~ In k own_keys -> dget (h1 x) k = dget (h x) k).
      { intros x k N. rewrite H1. destruct (Nat.eqb_spec x r); [subst x|reflexivity].
        rewrite D, align_get. apply (entries_none o) in N. now rewrite N. }
      repeat split.
      + intros [|i] r' o' H; cbn [nth_error] in *.
        * injection H as <- <-. exists d. split; [reflexivity|]. intro k. rewrite D. apply align_get.
        * destruct (I1 i r' o' H) as (d' & N & E). exists d'. split; [exact N|]. intro k. rewrite E.
          destruct (dget (entries fftlog o') k) eqn:Q; [reflexivity|]. apply entries_none in Q. now apply K.
      + intros x k N. rewrite I2 by exact N. now apply K.
      + intros x N. simpl in N. rewrite I3 by tauto. rewrite H1.
        destruct (Nat.eqb_spec x r); [|reflexivity]. subst. exfalso. apply N. now left.
  Qed.

  (** After the last computation on a dictionary, its six entries are that one's. *)
  Lemma aligns_last l : forall (h : @heap V) r o, 
    forall k, dget (fst (aligns h (l ++ [(r, o)])) r) k =
      match dget (entries fftlog o) k with Some v => Some v | None => dget (h r) k end.
  Proof.
    induction l as [|[r' o'] l IH]; intros h r o k.
    - cbn [app Validate.aligns]. destruct (align h r o) as [h1 d] eqn:A. cbn [fst].
      rewrite <- (align_get h r o k). rewrite <- A at 1 || idtac.
      change h1 with (fst (h1, d)). rewrite <- A. rewrite align_heap, Nat.eqb_refl. reflexivity.
    - cbn [app Validate.aligns]. destruct (align h r' o') as [h1 d] eqn:A.
      specialize (IH h1 r o k). destruct (aligns h1 (l ++ [(r, o)])) as [h2 ds]. cbn [fst] in *.
      rewrite IH. destruct (dget (entries fftlog o) k) eqn:Q; [reflexivity|].
      change h1 with (fst (h1, d)). rewrite <- A. rewrite align_heap.
      destruct (Nat.eqb_spec r r'); [subst|reflexivity].
      rewrite align_get. apply entries_none in Q. apply (entries_none o') in Q. now rewrite Q.
  Qed.

  Lemma attach_given (h : @heap V) new r :
    h r <> [] -> attach h new (Some r) = (h, r).
  Proof. intro N. unfold attach. destruct (h r); [congruence|reflexivity]. Qed.
  Lemma attach_empty (h : @heap V) new r :
    h r = [] -> r <> new -> snd (attach h new (Some r)) = new /\ fst (attach h new (Some r)) r = [].
  Proof.
    intros E N. unfold attach. rewrite E. simpl. split; [reflexivity|]. unfold hput.
    destruct (Nat.eqb_spec r new); [congruence|exact E].
  Qed.
End Dict.

(** ** Statements used in ConfProps.v *)
Lemma construction m i :
  (documented m i <-> new_conf m i = Ok {| cf_mode := m; cf_ingr := i |}) /\
  (~ documented m i <-> new_conf m i = Err "ValueError").
Proof.
  pose proof (new_conf_iff m i) as I. split; [split; intro H|split; intro H].
  - now apply I.
  - apply I in H. tauto.
  - destruct (new_conf m i) as [c|e] eqn:E.
    + specialize (I c). destruct I as [I _]. destruct (I eq_refl). tauto.
    + apply new_conf_error in E. now subst.
  - intro D. assert (W : new_conf m i = Ok {| cf_mode := m; cf_ingr := i |}) by now apply I. congruence.
Qed.

Lemma assign_all_result l : forall c,
  snd (assign_all c l) = Ok tt \/ snd (assign_all c l) = Err "ValueError".
Proof.
  induction l as [|a l IH]; intro c; simpl.
  - unfold validate. destruct (_ && _)%bool; [now right|]. destruct (_ && _)%bool; auto.
  - destruct (assign c a) as [c1|e] eqn:A; [apply IH|]. right. simpl.
    destruct a; unfold assign in A;
      (destruct (check _ v) eqn:C; [discriminate|]; injection A as <-; apply check_err in C;
       destruct C as [_ ->]; reflexivity).
Qed.

Lemma assign_all_iff l : forall c,
  In (cf_mode c) NONLINEAR_MODES -> In (cf_ingr c) VALID_HMCODE_INGREDIENTS ->
  let m := last_mode (cf_mode c) l in let i := last_ingr (cf_ingr c) l in
  (assign_all c l = ({| cf_mode := m; cf_ingr := i |}, Ok tt) <->
   documented m i /\ (forall v, In (SetMode v) l -> In v NONLINEAR_MODES) /\
   (forall v, In (SetIngr v) l -> In v VALID_HMCODE_INGREDIENTS)).
Proof.
  induction l as [|a l IH]; intros c M I.
  - cbn [last_mode last_ingr assign_all]. pose proof (valid_iff c M I) as W. destruct c as [cm ci].
    cbn [cf_mode cf_ingr] in *. cbv zeta. split.
    + intro H. injection H as H. apply W in H. split; [exact H|]. split; intros v [].
    + intros [D _]. apply W in D. rewrite D. reflexivity.
  - destruct a as [v|v]; cbn [assign_all assign last_mode last_ingr]; cbv zeta.
    + destruct (check NONLINEAR_MODES v) as [w|e] eqn:C; cbn [bind].
      * apply check_ok in C. destruct C as [C ->].
        specialize (IH {| cf_mode := v; cf_ingr := cf_ingr c |} C I). cbv zeta in IH. cbn [cf_mode cf_ingr] in IH.
        rewrite IH. split; intros (D & A & B); (split; [exact D|]); split.
        -- intros x [E|E]; [now injection E as <-|now apply A].
        -- intros x [E|E]; [discriminate|now apply B].
        -- intros x E. apply A. now right.
        -- intros x E. apply B. now right.
      * apply check_err in C. split; [discriminate|]. intros (_ & A & _). exfalso. apply (proj1 C).
        apply A. now left.
    + destruct (check VALID_HMCODE_INGREDIENTS v) as [w|e] eqn:C; cbn [bind].
      * apply check_ok in C. destruct C as [C ->].
        specialize (IH {| cf_mode := cf_mode c; cf_ingr := v |} M C). cbv zeta in IH. cbn [cf_mode cf_ingr] in IH.
        rewrite IH. split; intros (D & A & B); (split; [exact D|]); split.
        -- intros x [E|E]; [discriminate|now apply A].
        -- intros x [E|E]; [now injection E as <-|now apply B].
        -- intros x E. apply A. now right.
        -- intros x E. apply B. now right.
      * apply check_err in C. split; [discriminate|]. intros (_ & _ & B). exfalso. apply (proj1 C).
        apply B. now left.
Qed.
Lemma update_exact c l : configured c ->
  let m := last_mode (cf_mode c) l in let i := last_ingr (cf_ingr c) l in
  (update_conf c l = ({| cf_mode := m; cf_ingr := i |}, Ok tt) <->
   documented m i /\ (forall v, In (SetMode v) l -> In v NONLINEAR_MODES) /\
   (forall v, In (SetIngr v) l -> In v VALID_HMCODE_INGREDIENTS)) /\
  (snd (update_conf c l) = Ok tt \/ snd (update_conf c l) = Err "ValueError").
Proof.
  intro H. apply configured_documented, documented_in in H. destruct H as [M I].
  split; [now apply assign_all_iff|apply assign_all_result].
Qed.

Lemma configured_spectra c S : configured c ->
  s_mode S = mode_of (cf_mode c) -> s_ingr S = ingr_of (cf_ingr c) -> good_inputs S ->
  (exists r, power_spectrum_mm S = Ok r) /\ (exists r, power_spectrum_gg S = Ok r) /\
  (exists r, power_spectrum_gm S = Ok r) /\ (exists r, power_spectrum_mi S = Ok r) /\
  (exists r, power_spectrum_ii S = Ok r) /\ (exists r, power_spectrum_gi S = Ok r).
Proof. intros C M I G. apply all_good; [exact G|]. eapply configured_good; eauto. Qed.

Lemma ex_good : good_inputs ex_S.
Proof.
  unfold good_inputs. split; [|split; [|split; [|split; [|split]]]]; simpl; auto; try lia; eauto.
  left. discriminate.
Qed.
Lemma with_mode_good m S : good_inputs S -> good_inputs (with_mode m S).
Proof. intro G. exact G. Qed.

Lemma rejected_update :
  exists c l c' S, configured c /\ update_conf c l = (c', Err "ValueError") /\
    ~ documented (cf_mode c') (cf_ingr c') /\ good_inputs S /\
    s_mode S = mode_of (cf_mode c') /\ s_ingr S = ingr_of (cf_ingr c') /\
    power_spectrum_mm S = Err "UnboundLocalError".
Proof.
  exists {| cf_mode := PNone; cf_ingr := PNone |}, [SetMode (PStr "hmcode")],
    {| cf_mode := PStr "hmcode"; cf_ingr := PNone |}, (with_mode Hmcode ex_S).
  assert (I : s_ingr (with_mode Hmcode ex_S) = NoIngr) by reflexivity.
  assert (G : good_inputs (with_mode Hmcode ex_S)) by exact (with_mode_good Hmcode _ ex_good).
  split; [apply (built PNone PNone); reflexivity|]. split; [reflexivity|]. split.
  { intros (_ & _ & H). destruct (H eq_refl) as [E|E]; discriminate. }
  split; [exact G|]. split; [reflexivity|]. split; [exact I|].
  unfold power_spectrum_mm. change (s_response (with_mode Hmcode ex_S)) with false. cbn iota.
  unfold power_spectrum_mm_raw. destruct (pk_lin_good _ G) as [p E]. rewrite E. cbn [bind].
  rewrite I. change (s_mode (with_mode Hmcode ex_S)) with Hmcode. reflexivity.
Qed.

Lemma alignment_options :
  (forall v, ia_depends_on v = Ok v <-> v = PStr "constant" \/ v = PStr "luminosity" \/ v = PStr "halo_mass") /\
  (forall v, ia_method v = Ok v <-> v = PStr "hankel" \/ v = PStr "fftlog") /\
  (forall v e, ia_depends_on v = Err e \/ ia_method v = Err e -> e = "ValueError").
Proof.
  split; [|split].
  - intro v. unfold ia_depends_on. rewrite check_ok. simpl. intuition auto.
  - intro v. unfold ia_method. rewrite check_ok. simpl. intuition auto.
  - intros v e [H|H]; apply check_err in H; tauto.
Qed.

Lemma shared_dictionaries (V : Type) (fftlog : V) (l : list (nat * own)) (h : heap) :
  (forall i r o, nth_error l i = Some (r, o) ->
     exists d, nth_error (snd (aligns fftlog h l)) i = Some d /\
       dget d "z_vec" = Some (o_z o) /\ dget d "mass_in" = Some (o_mass o) /\
       dget d "c_in" = Some (o_c o) /\ dget d "r_s_in" = Some (o_rs o) /\
       dget d "rvir_in" = Some (o_rvir o) /\ dget d "method" = Some fftlog /\
       forall k, ~ In k own_keys -> dget d k = dget (h r) k) /\
  (forall x k, ~ In k own_keys -> dget (fst (aligns fftlog h l) x) k = dget (h x) k) /\
  (forall x, ~ In x (map fst l) -> fst (aligns fftlog h l) x = h x).
Proof.
  destruct (aligns_ok fftlog l h) as (A & B & C). split; [|split; assumption].
  intros i r o H. destruct (A i r o H) as (d & N & E). exists d.
  split; [exact N|]. rewrite !E. do 6 (split; [reflexivity|]).
  intros k K. rewrite E. apply (entries_none fftlog o) in K. now rewrite K.
Qed.
Lemma attached (V : Type) (h : @heap V) new r : r <> new ->
  (h r <> [] -> attach h new (Some r) = (h, r)) /\
  (h r = [] -> forall fftlog os,
     fst (aligns fftlog (fst (attach h new (Some r)))
            (map (fun o => (snd (attach h new (Some r)), o)) os)) r = []).
Proof.
  intro N. split; [apply attach_given|]. intros E fftlog os.
  destruct (attach_empty h new r E N) as [A1 A2]. rewrite A1.
  destruct (aligns_ok fftlog (map (fun o => (new, o)) os) (fst (attach h new (Some r)))) as (_ & _ & C).
  rewrite C; [exact A2|]. intro I. apply in_map_iff in I. destruct I as ([x o] & <- & I).
  apply in_map_iff in I. destruct I as (o' & E' & _). injection E' as -> _. now apply N.
Qed.
Lemma caller_changed :
  exists (h : @heap string) r new o, h r <> [] /\ r <> new /\
    let (h1, a) := attach h new (Some r) in
    let (h2, kwargs) := align "fftlog" h1 a o in
    dget (h r) "method" = Some "hankel" /\ dget kwargs "method" = Some "fftlog" /\
    dget (h2 r) "method" = Some "fftlog" /\ dget (h r) "z_vec" = None /\ dget (h2 r) "z_vec" = Some "z".
Proof.
  exists (fun _ => [("method", "hankel")]), 0%nat, 1%nat,
    {| o_z := "z"; o_mass := "m"; o_c := "c"; o_rs := "r"; o_rvir := "v" |}.
  split; [discriminate|]. split; [discriminate|]. repeat split; reflexivity.
Qed.
