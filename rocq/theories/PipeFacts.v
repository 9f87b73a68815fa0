(** Proofs about the pipeline module: names, dictionaries, parameters, settings, interpolation. *)
From Coq Require Import Decimal DecimalString DecimalNat DecimalFacts Ascii.
From Verif Require Import Base Spec Quad Interp BaseFacts QuadFacts InterpFacts HodModel PkModel AddModel AddSpec AddFacts AddFacts2 PipeModel PipeSpec.
Open Scope string_scope.

(** ** Names *)
Lemma chars_app a b : list_ascii_of_string (a ++ b) = (list_ascii_of_string a ++ list_ascii_of_string b)%list.
Proof. induction a as [|c a IH]; [reflexivity|]. cbn. now rewrite IH. Qed.
Lemma chars_inj a b : list_ascii_of_string a = list_ascii_of_string b -> a = b.
Proof. intro H. rewrite <- (string_of_list_ascii_of_string a), H. apply string_of_list_ascii_of_string. Qed.
Lemma uint_digits d : Forall (fun c => In c digits) (list_ascii_of_string (NilEmpty.string_of_uint d)).
Proof. induction d; cbn [NilEmpty.string_of_uint list_ascii_of_string]; constructor; try assumption; unfold digits; cbn; tauto. Qed.
Lemma dec_inj n m : dec n = dec m -> n = m.
Proof.
  unfold dec. intro H. apply (f_equal NilEmpty.uint_of_string) in H. rewrite !NilEmpty.usu in H. injection H as H.
  now apply DecimalNat.Unsigned.to_uint_inj.
Qed.
Lemma dec_nonempty n : list_ascii_of_string (dec n) <> [].
Proof.
  unfold dec. destruct (Nat.to_uint n) eqn:E; cbn; try discriminate.
  exfalso. rewrite <- (DecimalNat.Unsigned.of_to n), DecimalNat.Unsigned.to_of in E. now apply unorm_nonnil in E.
Qed.
Lemma split_last {A} (x : A) : forall a b d1 d2, ~ In x d1 -> ~ In x d2 -> (a ++ x :: d1)%list = (b ++ x :: d2)%list -> a = b /\ d1 = d2.
Proof.
  induction a as [|y a IH]; intros [|z b] d1 d2 N1 N2 H; cbn in H.
  - injection H as H. now split.
  - injection H as <- H. exfalso. apply N1. rewrite H. apply in_or_app. right. now left.
  - injection H as -> H. exfalso. apply N2. rewrite <- H. apply in_or_app. right. now left.
  - injection H as -> H. destruct (IH _ _ _ N1 N2 H) as [-> ->]. now split.
Qed.
Lemma underscore_split a b n m : a ++ "_" ++ dec n = b ++ "_" ++ dec m -> a = b /\ n = m.
Proof.
  intro H. apply (f_equal list_ascii_of_string) in H. rewrite !chars_app in H. cbn in H.
  assert (N : forall k, ~ In "_"%char (list_ascii_of_string (dec k))).
  { intros k I. pose proof (uint_digits (Nat.to_uint k)) as F. rewrite Forall_forall in F. specialize (F _ I). unfold digits in F. cbn in F.
    repeat (destruct F as [F|F]; [discriminate|]). exact F. }
  destruct (split_last _ _ _ _ _ (N n) (N m) H) as [E1 E2]. split; [now apply chars_inj|]. apply dec_inj, chars_inj, E2.
Qed.
(** The last character of a name that carries a bin number is a digit. *)
Lemma last_char_app a b d : last_char (a ++ b) d = last_char b (last_char a d).
Proof. revert d. induction a as [|c a IH]; intro d; [reflexivity|]. cbn. apply IH. Qed.
Lemma last_char_in s d : s <> "" -> In (last_char s d) (list_ascii_of_string s).
Proof.
  revert d. induction s as [|c s IH]; intros d H; [congruence|]. cbn [last_char list_ascii_of_string].
  destruct s as [|c' s]; [now left|]. right. apply IH. discriminate.
Qed.
Lemma numbered_last a n d : In (last_char (a ++ "_" ++ dec n) d) digits.
Proof.
  rewrite !last_char_app. pose proof (uint_digits (Nat.to_uint n)) as F. rewrite Forall_forall in F. apply F.
  apply last_char_in. intro E. apply (dec_nonempty n). unfold dec. now rewrite E.
Qed.
Lemma suffix_name base bins nb : base ++ suffix bins nb = bin_name base bins nb.
Proof.
  unfold suffix, bin_name, dec. destruct (Nat.eqb_spec bins 1), (Nat.eq_dec bins 1); try contradiction.
  - induction base as [|c s IH]; [reflexivity|]. cbn. now rewrite IH.
  - now rewrite Nat.add_1_r.
Qed.
Lemma bin_name_inj base base' bins bins' nb nb' : unnumbered base -> unnumbered base' ->
  (nb < bins)%nat -> (nb' < bins')%nat -> bin_name base bins nb = bin_name base' bins' nb' ->
  base = base' /\ nb = nb'.
Proof.
  intros U U' L L' E. unfold bin_name in E. destruct (Nat.eq_dec bins 1) as [->|N], (Nat.eq_dec bins' 1) as [->|N'].
  - split; [exact E|lia].
  - exfalso. apply U. rewrite E. apply (numbered_last base' (S nb')).
  - exfalso. apply U'. rewrite <- E. apply (numbered_last base (S nb)).
  - change (base ++ "_" ++ dec (S nb) = base' ++ "_" ++ dec (S nb')) in E. apply underscore_split in E as [-> E]. split; [reflexivity|lia].
Qed.
Lemma bin_name_same base base' bins nb nb' : (nb < bins)%nat -> (nb' < bins)%nat ->
  bin_name base bins nb = bin_name base' bins nb' -> base = base' /\ nb = nb'.
Proof.
  intros L L' E. unfold bin_name in E. destruct (Nat.eq_dec bins 1) as [->|N].
  - split; [exact E|lia].
  - change (base ++ "_" ++ dec (S nb) = base' ++ "_" ++ dec (S nb')) in E. apply underscore_split in E as [-> E]. split; [reflexivity|lia].
Qed.

(** ** Dictionaries *)
Lemma dget_dset {V} (d : dict V) k k' v : dget (dset d k v) k' = if string_dec k' k then Some v else dget d k'.
Proof.
  induction d as [|(a, x) d IH]; cbn [dset dget].
  - destruct (string_dec k' k) as [->|N]; [now rewrite String.eqb_refl|]. apply String.eqb_neq in N. now rewrite N.
  - destruct (String.eqb_spec k a) as [->|N]; cbn [dget].
    + destruct (String.eqb_spec k' a) as [->|N']; destruct (string_dec _ _); congruence.
    + destruct (String.eqb_spec k' a) as [->|N']; [destruct (string_dec a k); congruence|exact IH].
Qed.
Ltac dsimp := cbn [dupdate fold_left fst snd]; rewrite ?dget_dset;
  repeat match goal with |- context [string_dec ?a ?b] => destruct (string_dec a b); [try discriminate|try congruence] end.

(** ** Poisson and HOD parameters *)
Lemma poisson_table ty : match dget poisson_parameters ty with Some l => l | None => [] end = required_poisson ty.
Proof.
  unfold poisson_parameters, required_poisson. cbn [dget].
  destruct (String.eqb_spec ty "constant"), (string_dec ty "constant"); try contradiction; [reflexivity|].
  destruct (String.eqb_spec ty "power_law"), (string_dec ty "power_law"); try contradiction; reflexivity.
Qed.
Lemma hod_table m : match dget parameters_models m with Some l => l | None => [] end = required_hod m.
Proof.
  unfold parameters_models, required_hod. cbn [dget].
  destruct (String.eqb_spec m "Zheng"), (string_dec m "Zheng"); try contradiction; [reflexivity|].
  destruct (String.eqb_spec m "Zhai"), (string_dec m "Zhai"); try contradiction; [reflexivity|].
  destruct (String.eqb_spec m "Cacciato"), (string_dec m "Cacciato"); try contradiction; reflexivity.
Qed.
Lemma gson_present miss b s n v : b s n = Some v -> scalar v -> get_string_or_none miss b s n None = Ok (as_param v).
Proof.
  intros H N. unfold get_string_or_none. rewrite H. destruct v as [x|t| | |]; try (destruct N; fail); [reflexivity|].
  cbn. destruct (String.eqb_spec t "None"), (string_dec t "None"); try contradiction; reflexivity.
Qed.
Lemma poisson_loop_ok miss b ps : forall acc d, poisson_loop miss b ps acc = Ok d ->
  (forall p, In p ps -> exists v, b "pk_parameters" p = Some v /\ dget d p = Some (as_param v)) /\
  (forall k, ~ In k ps -> dget d k = dget acc k).
Proof.
  induction ps as [|p ps IH]; intros acc d H; cbn [poisson_loop] in H.
  - injection H as <-. split; [intros p []|auto].
  - destruct (b "pk_parameters" p) as [v|] eqn:B; [|discriminate].
    assert (NV : scalar v).
    { unfold get_string_or_none in H. rewrite B in H. destruct v; try discriminate H; exact I. }
    rewrite (gson_present miss b _ p v B NV) in H. cbn [bind] in H. destruct (IH _ _ H) as [I1 I2]. split.
    + intros q [<-|Hq]; [|exact (I1 q Hq)]. destruct (in_dec string_dec p ps) as [Ip|Np]; [exact (I1 p Ip)|].
      exists v. split; [exact B|]. rewrite I2 by exact Np. rewrite dget_dset. destruct (string_dec p p); congruence.
    + intros k Hk. cbn [In] in Hk. rewrite I2 by tauto. rewrite dget_dset. destruct (string_dec k p) as [->|]; tauto.
Qed.
Lemma poisson_loop_missing miss b ps p : In p ps -> b "pk_parameters" p = None -> forall acc, exists e, poisson_loop miss b ps acc = Err e.
Proof.
  intros I B. induction ps as [|q ps IH]; intro acc; [destruct I|]. cbn [poisson_loop].
  destruct (b "pk_parameters" q) as [v|] eqn:Q; [|eauto].
  destruct I as [->|I]; [congruence|]. destruct (get_string_or_none miss b "pk_parameters" q None); cbn [bind]; [apply IH, I|eauto].
Qed.
Lemma poisson_loop_total miss b ps : (forall p, In p ps -> exists v, b "pk_parameters" p = Some v /\ scalar v) ->
  forall acc, exists d, poisson_loop miss b ps acc = Ok d.
Proof.
  induction ps as [|p ps IH]; intros H acc; cbn [poisson_loop]; [eauto|].
  destruct (H p (or_introl eq_refl)) as (v & B & N). rewrite B, (gson_present _ _ _ _ _ B N). cbn [bind].
  apply IH. intros q Hq. apply H. now right.
Qed.
Lemma bin_loop_ok b sec p nbins nbs : forall acc l, bin_loop b sec p nbins nbs acc = Ok l ->
  exists l', l = (acc ++ l')%list /\ Forall2 (fun nb v => b sec (p ++ suffix nbins nb) = Some v) nbs l'.
Proof.
  induction nbs as [|nb nbs IH]; intros acc l H; cbn [bin_loop] in H.
  - injection H as <-. exists []. split; [now rewrite app_nil_r|constructor].
  - destruct (b sec (p ++ suffix nbins nb)) as [v|] eqn:B; [|discriminate]. destruct (IH _ _ H) as (l' & -> & F).
    exists (v :: l'). split; [now rewrite <- app_assoc|]. constructor; assumption.
Qed.
Lemma bin_loop_missing b sec p nbins nbs nb : In nb nbs -> b sec (p ++ suffix nbins nb) = None ->
  forall acc, bin_loop b sec p nbins nbs acc = Err "Exception".
Proof.
  intros I B. induction nbs as [|q nbs IH]; intro acc; [destruct I|]. cbn [bin_loop]. destruct I as [->|I]; [now rewrite B|].
  destruct (b sec (p ++ suffix nbins q)); [apply IH, I|reflexivity].
Qed.
Lemma bin_loop_total b sec p nbins nbs : (forall nb, In nb nbs -> b sec (p ++ suffix nbins nb) <> None) ->
  forall acc, exists l, bin_loop b sec p nbins nbs acc = Ok l.
Proof.
  induction nbs as [|q nbs IH]; intros H acc; cbn [bin_loop]; [eauto|].
  destruct (b sec (p ++ suffix nbins q)) eqn:B; [|exfalso; apply (H q); [now left|exact B]]. apply IH. intros nb Hn. apply H. now right.
Qed.
Lemma Forall2_seq {B} (P : nat -> B -> Prop) (d : B) n l : Forall2 P (seq 0 n) l -> List.length l = n /\ forall i, (i < n)%nat -> P i (nth i l d).
Proof.
  assert (G : forall m s l, Forall2 P (seq s m) l -> List.length l = m /\ forall i, (i < m)%nat -> P (s + i)%nat (nth i l d)).
  { induction m as [|m IH]; intros s l0 H; inversion H; subst; [split; [reflexivity|intros i Hi; lia]|].
    destruct (IH _ _ H4) as [L F]. split; [cbn; lia|]. intros [|i] Hi; cbn [nth]; [now rewrite Nat.add_0_r|].
    rewrite <- Nat.add_succ_comm. apply F. lia. }
  apply (G n 0%nat l).
Qed.
Lemma hod_loop_ok b sec model nbins ps : forall acc d, hod_loop b sec model nbins ps acc = Ok d ->
  (forall p, In p ps -> collected b sec model nbins p (dget d p)) /\ (forall k, ~ In k ps -> dget d k = dget acc k).
Proof.
  induction ps as [|p ps IH]; intros acc d H; cbn [hod_loop] in H.
  - injection H as <-. split; [intros p []|auto].
  - assert (G : exists v, hod_loop b sec model nbins ps (dset acc p v) = Ok d /\ collected b sec model nbins p (Some v)).
    { unfold collected. destruct (String.eqb_spec model "Cacciato") as [E|N]; destruct (string_dec model "Cacciato"); try contradiction.
      - destruct (b sec p) as [x|]; [|discriminate]. exists (HVal x). split; [exact H|eauto].
      - destruct (bin_loop b sec p nbins (seq 0 nbins) []) as [l|] eqn:B; cbn [bind] in H; [|discriminate].
        exists (HArr l). split; [exact H|]. exists l. split; [reflexivity|].
        apply bin_loop_ok in B as (l' & -> & F). cbn [app]. apply (Forall2_seq _ VOther) in F as [L F]. split; [exact L|].
        intros nb Hn. rewrite <- suffix_name. now apply F. }
    destruct G as (v & G & C). destruct (IH _ _ G) as [I1 I2]. split.
    + intros q [<-|Hq]; [|exact (I1 q Hq)]. destruct (in_dec string_dec p ps) as [Ip|Np]; [exact (I1 p Ip)|].
      rewrite I2 by exact Np. rewrite dget_dset. destruct (string_dec p p); [exact C|congruence].
    + intros k Hk. cbn [In] in Hk. rewrite I2 by tauto. rewrite dget_dset. destruct (string_dec k p) as [->|]; tauto.
Qed.
Lemma hod_loop_missing b sec model nbins ps p : In p ps -> param_missing b sec model nbins p ->
  forall acc, hod_loop b sec model nbins ps acc = Err "Exception".
Proof.
  intros I Mi. induction ps as [|q ps IH]; intro acc; [destruct I|]. cbn [hod_loop].
  unfold param_missing in Mi. destruct (String.eqb_spec model "Cacciato") as [E|N]; destruct (string_dec model "Cacciato"); try contradiction.
  - destruct I as [->|I]; [now rewrite Mi|]. destruct (b sec q); [apply IH, I|reflexivity].
  - destruct I as [->|I].
    + destruct Mi as (nb & L & B). rewrite <- suffix_name in B.
      rewrite (bin_loop_missing b sec p nbins (seq 0 nbins) nb); [reflexivity|apply in_seq; lia|exact B].
    + destruct (bin_loop b sec q nbins (seq 0 nbins) []) as [l|e] eqn:Q; cbn [bind]; [apply IH, I|].
      f_equal. clear - Q. revert Q. generalize (@nil val). induction (seq 0 nbins) as [|x xs IHx]; intros acc' Q; cbn [bin_loop] in Q; [discriminate|].
      destruct (b sec (q ++ suffix nbins x)); [exact (IHx _ Q)|congruence].
Qed.
Lemma hod_loop_total b sec model nbins ps : (forall p, In p ps -> ~ param_missing b sec model nbins p) ->
  forall acc, exists d, hod_loop b sec model nbins ps acc = Ok d.
Proof.
  induction ps as [|q ps IH]; intros H acc; cbn [hod_loop]; [eauto|].
  pose proof (H q (or_introl eq_refl)) as Hq. unfold param_missing in Hq.
  assert (H' : forall p, In p ps -> ~ param_missing b sec model nbins p) by (intros p Hp; apply H; now right).
  destruct (String.eqb_spec model "Cacciato") as [E|N]; destruct (string_dec model "Cacciato"); try contradiction.
  - destruct (b sec q); [apply IH, H'|congruence].
  - destruct (bin_loop_total b sec q nbins (seq 0 nbins)) with (acc := @nil val) as [l ->].
    + intros nb Hn B. apply in_seq in Hn. apply Hq. exists nb. split; [lia|]. now rewrite <- suffix_name.
    + cbn [bind]. apply IH, H'.
Qed.
Lemma needs_missing b sec model nbins name : hod_needs model nbins name -> b sec name = None ->
  exists p, In p (required_hod model) /\ param_missing b sec model nbins p.
Proof.
  intros (p & I & H) B. exists p. split; [exact I|]. unfold param_missing. destruct H as [[-> ->]|[N (nb & L & ->)]].
  - destruct (string_dec "Cacciato" "Cacciato"); [exact B|congruence].
  - destruct (string_dec model "Cacciato"); [contradiction|eauto].
Qed.
Lemma hod_params_spec b sec model nbins :
  (forall d, hod_params b sec model nbins = Ok d ->
     required_hod model <> [] /\
     (forall p, In p (required_hod model) -> collected b sec model nbins p (dget d p)) /\
     dget d "A_cen" = Some (match b sec "A_cen" with Some v => HVal v | None => HNone end) /\
     dget d "A_sat" = Some (match b sec "A_sat" with Some v => HVal v | None => HNone end)) /\
  (required_hod model = [] -> hod_params b sec model nbins = Err "KeyError") /\
  (forall name, hod_needs model nbins name -> b sec name = None -> hod_params b sec model nbins = Err "Exception") /\
  (required_hod model <> [] -> (forall name, hod_needs model nbins name -> b sec name <> None) ->
     exists d, hod_params b sec model nbins = Ok d).
Proof.
  unfold hod_params, lookup_key. pose proof (hod_table model) as T.
  assert (A : forall p, In p (required_hod model) -> p <> "A_cen" /\ p <> "A_sat").
  { intros p. unfold required_hod. destruct (string_dec model "Zheng"), (string_dec model "Zhai"), (string_dec model "Cacciato"); cbn;
      intro H; repeat (destruct H as [<-|H]; [split; discriminate|]); destruct H. }
  destruct (dget parameters_models model) as [l|] eqn:E.
  - subst l. cbn [bind]. split; [|split; [|split]].
    + intros d H. destruct (hod_loop_ok _ _ _ _ _ _ _ H) as [I1 I2]. split; [|split; [exact I1|]].
      * intro Z. unfold parameters_models in E. rewrite Z in E. cbn [dget] in E.
        destruct (String.eqb model "Zheng"); [discriminate|]. destruct (String.eqb model "Zhai"); [discriminate|].
        destruct (String.eqb model "Cacciato"); discriminate.
      * rewrite !I2 by (intro I; destruct (A _ I); congruence). split; reflexivity.
    + intro Z. unfold parameters_models in E. rewrite Z in E. cbn [dget] in E.
      destruct (String.eqb model "Zheng"); [discriminate|]. destruct (String.eqb model "Zhai"); [discriminate|].
      destruct (String.eqb model "Cacciato"); discriminate.
    + intros name H B. destruct (needs_missing _ _ _ _ _ H B) as (p & I & P). exact (hod_loop_missing _ _ _ _ _ p I P _).
    + intros _ H. apply hod_loop_total. intros p I P. unfold param_missing in P. destruct (string_dec model "Cacciato") as [->|N].
      * apply (H p); [|exact P]. exists p. split; [exact I|]. left. split; reflexivity.
      * destruct P as (nb & L & B). apply (H (bin_name p nbins nb)); [|exact B]. exists p. split; [exact I|]. right. split; [exact N|]. eauto.
  - rewrite <- T. cbn [bind]. split; [discriminate|]. split; [reflexivity|]. split; [|congruence].
    intros name (p & I & _). rewrite <- T in I. destruct I.
Qed.
Lemma poisson_params_spec miss b ty :
  (forall d, poisson_params miss b ty = Ok d -> required_poisson ty <> [] /\
     forall p, In p (required_poisson ty) -> exists v, b "pk_parameters" p = Some v /\ dget d p = Some (as_param v)) /\
  (required_poisson ty = [] -> poisson_params miss b ty = Err "KeyError") /\
  (forall p, In p (required_poisson ty) -> b "pk_parameters" p = None -> exists e, poisson_params miss b ty = Err e) /\
  (required_poisson ty <> [] -> (forall p, In p (required_poisson ty) -> exists v, b "pk_parameters" p = Some v /\ scalar v) ->
     exists d, poisson_params miss b ty = Ok d).
Proof.
  unfold poisson_params, lookup_key. pose proof (poisson_table ty) as T.
  destruct (dget poisson_parameters ty) as [l|] eqn:E.
  - subst l. cbn [bind].
    assert (NE : required_poisson ty <> []).
    { intro Z. unfold poisson_parameters in E. rewrite Z in E. cbn [dget] in E.
      destruct (String.eqb ty "constant"); [discriminate|]. destruct (String.eqb ty "power_law"); discriminate. }
    split; [|split; [|split]].
    + intros d H. split; [exact NE|]. apply (poisson_loop_ok _ _ _ _ _ H).
    + contradiction.
    + intros p I B. exact (poisson_loop_missing miss b _ p I B []).
    + intros _ H. now apply poisson_loop_total.
  - rewrite <- T. cbn [bind]. split; [discriminate|]. split; [reflexivity|]. split; [intros p []|congruence].
Qed.

(** ** Alignment parameters *)
Lemma gated_spec b pop central satellite d0 d : align_gated b pop central satellite d0 = Ok d ->
  dget d "beta_sat" = Some (gate central (b (ia_section pop) "beta_sat")) /\
  dget d "mpivot_sat" = Some (gate central (b (ia_section pop) "M_pivot")) /\
  dget d "beta_cen" = Some (gate satellite (b (ia_section pop) "beta")) /\
  dget d "mpivot_cen" = Some (gate satellite (b (ia_section pop) "M_pivot")) /\
  forall k, ~ In k ["beta_sat"; "mpivot_sat"; "beta_cen"; "mpivot_cen"] -> dget d k = dget d0 k.
Proof.
  unfold align_gated, bget, gate. intro H.
  destruct (String.eqb_spec central "halo_mass"); destruct (string_dec central "halo_mass"); try contradiction;
  destruct (String.eqb_spec satellite "halo_mass"); destruct (string_dec satellite "halo_mass"); try contradiction;
  repeat match type of H with context [match b ?s ?n with _ => _ end] => destruct (b s n); cbn [bind] in H; try discriminate end;
  cbn [bind] in H; injection H as <-;
  (split; [|split; [|split; [|split]]]);
  try (dsimp; reflexivity);
  intros k Hk; cbn [In] in Hk; cbn [dupdate fold_left fst snd]; rewrite ?dget_dset;
  repeat match goal with |- context [string_dec ?a ?b] => destruct (string_dec a b); [exfalso; subst; tauto|] end; reflexivity.
Qed.
Lemma gated_ok b pop central satellite d0 :
  (exists d, align_gated b pop central satellite d0 = Ok d) <->
  ((central = "halo_mass" -> b (ia_section pop) "beta_sat" <> None /\ b (ia_section pop) "M_pivot" <> None) /\
   (satellite = "halo_mass" -> b (ia_section pop) "beta" <> None /\ b (ia_section pop) "M_pivot" <> None)).
Proof.
  unfold align_gated, bget.
  destruct (String.eqb_spec central "halo_mass") as [->|NC]; destruct (String.eqb_spec satellite "halo_mass") as [->|NS];
  destruct (b (ia_section pop) "beta_sat"), (b (ia_section pop) "beta"), (b (ia_section pop) "M_pivot"); cbn [bind];
  split; intro H; try (destruct H as [? H]; discriminate H); try (eexists; reflexivity);
  try (split; intro; split; congruence);
  try (exfalso; destruct H as [H1 H2]; try (destruct (H1 eq_refl); congruence); try (destruct (H2 eq_refl); congruence)).
Qed.
Lemma gammas_spec b pop d0 d : align_gammas b pop d0 = Ok d ->
  exists x y z, b (ia_section pop) "gamma_1h_radial_slope" = Some x /\ b (ia_section pop) "gamma_1h_amplitude" = Some y /\
    b (ia_section pop) "gamma_2h_amplitude" = Some z /\
    dget d "gamma_1h_slope" = Some (Some x) /\ dget d "gamma_1h_amplitude" = Some (Some y) /\ dget d "gamma_2h_amplitude" = Some (Some z) /\
    forall k, ~ In k ["gamma_1h_slope"; "gamma_1h_amplitude"; "gamma_2h_amplitude"] -> dget d k = dget d0 k.
Proof.
  unfold align_gammas, bget. intro H.
  destruct (b (ia_section pop) "gamma_1h_radial_slope") as [x|]; cbn [bind] in H; [|discriminate].
  destruct (b (ia_section pop) "gamma_1h_amplitude") as [y|]; cbn [bind] in H; [|discriminate].
  destruct (b (ia_section pop) "gamma_2h_amplitude") as [z|]; cbn [bind] in H; [|discriminate].
  injection H as <-. exists x, y, z. do 3 (split; [reflexivity|]).
  split; [dsimp; reflexivity|]. split; [dsimp; reflexivity|]. split; [dsimp; reflexivity|].
  intros k Hk; cbn [In] in Hk; cbn [dupdate fold_left fst snd]; rewrite ?dget_dset.
  repeat match goal with |- context [string_dec ?a ?b] => destruct (string_dec a b); [exfalso; subst; tauto|] end. reflexivity.
Qed.
Ltac notin := let H := fresh in intro H; cbn [In] in H; repeat (destruct H as [H|H]; [discriminate|]); exact H.
Lemma align_params_spec b pop central satellite d : align_params b pop central satellite = Ok d ->
  population b pop central satellite d.
Proof.
  unfold align_params. destruct (align_gated b pop central satellite []) as [d1|] eqn:G; cbn [bind]; [|discriminate].
  intro H. apply gated_spec in G as (G1 & G2 & G3 & G4 & G5). apply gammas_spec in H as (x & y & z & X & Y & Z & H1 & H2 & H3 & H4).
  unfold population, ia_section in *. rewrite X, Y, Z, H1, H2, H3. rewrite !H4 by notin.
  repeat split; dsimp; try assumption; reflexivity.
Qed.
Lemma align_params_2_spec b pop central satellite pop2 d d2 : align_params b pop central satellite = Ok d ->
  align_params_2 b pop2 central satellite d = Ok d2 -> population b pop2 central satellite d2.
Proof.
  intros H0. apply align_params_spec in H0 as (_ & _ & _ & _ & _ & _ & _ & K1 & K2 & K3 & K4).
  unfold align_params_2. destruct (align_gated b pop2 central satellite d) as [d1|] eqn:G; cbn [bind]; [|discriminate].
  intro H. apply gated_spec in G as (G1 & G2 & G3 & G4 & G5). apply gammas_spec in H as (x & y & z & X & Y & Z & H1 & H2 & H3 & H4).
  unfold population, ia_section in *. rewrite X, Y, Z, H1, H2, H3. rewrite !H4 by notin. rewrite (G5 "nmass"), (G5 "n_hankel"), (G5 "nk"), (G5 "ell_max") by notin.
  repeat split; assumption.
Qed.

(** ** HOD settings *)
Lemma hput_nth h : forall r d q, (r < List.length h)%nat -> hget (hput h r d) q = if Nat.eq_dec q r then d else hget h q.
Proof.
  unfold hget. induction h as [|x h IH]; intros r d q H; [cbn in H; lia|].
  destruct r as [|r], q as [|q]; cbn [hput nth]; try reflexivity.
  rewrite IH by (cbn in H; lia). destruct (Nat.eq_dec q r), (Nat.eq_dec (S q) (S r)); try lia; reflexivity.
Qed.
Lemma hput_length h : forall r d, List.length (hput h r d) = List.length h.
Proof. induction h as [|x h IH]; intros [|r] d; cbn; try reflexivity. now rewrite IH. Qed.
Lemma assign_get h r k v q : (r < List.length h)%nat ->
  hget (assign_key h r k v) q = if Nat.eq_dec q r then dset (hget h r) k v else hget h q.
Proof. intro H. unfold assign_key. now apply hput_nth. Qed.
Lemma assign_length h r k v : List.length (assign_key h r k v) = List.length h.
Proof. apply hput_length. Qed.
Lemma arr_min_spec l v : arr_min l = Ok v -> In v l /\ forall x, In x l -> (v <= x)%R.
Proof.
  destruct l as [|x l]; cbn; [discriminate|]. intro H. injection H as <-. revert x.
  induction l as [|y l IH]; intro x; cbn.
  - split; [now left|]. intros z [<-|[]]. lra.
  - destruct (IH (Rmin x y)) as [A B]. split.
    + destruct A as [A|A]; [|tauto]. rewrite <- A. unfold Rmin. destruct (Rle_dec x y); tauto.
    + intros z Hz. pose proof (B (Rmin x y) (or_introl eq_refl)). pose proof (Rmin_l x y). pose proof (Rmin_r x y).
      destruct Hz as [<-|[<-|Hz]]; [lra|lra|]. apply B. now right.
Qed.
Lemma arr_max_spec l v : arr_max l = Ok v -> In v l /\ forall x, In x l -> (x <= v)%R.
Proof.
  destruct l as [|x l]; cbn; [discriminate|]. intro H. injection H as <-. revert x.
  induction l as [|y l IH]; intro x; cbn.
  - split; [now left|]. intros z [<-|[]]. lra.
  - destruct (IH (Rmax x y)) as [A B]. split.
    + destruct A as [A|A]; [|tauto]. rewrite <- A. unfold Rmax. destruct (Rle_dec x y); tauto.
    + intros z Hz. pose proof (B (Rmax x y) (or_introl eq_refl)). pose proof (Rmax_l x y). pose proof (Rmax_r x y).
      destruct Hz as [<-|[<-|Hz]]; [lra|lra|]. apply B. now right.
Qed.
Lemma hget_app h d : hget (h ++ [d])%list (List.length h) = d.
Proof. unfold hget. rewrite app_nth2 by lia. now rewrite Nat.sub_diag. Qed.
Lemma hget_app_old h d q : (q < List.length h)%nat -> hget (h ++ [d])%list q = hget h q.
Proof. intro H. unfold hget. now rewrite app_nth1. Qed.

Lemma get_arr_ok d k l : get_arr d k = Ok l -> dget d k = Some (SArr l).
Proof. unfold get_arr. destruct (dget d k) as [[]|]; try discriminate. intro H. now injection H as ->. Qed.

Lemma settings_mm_spec h r h' mm : (r < List.length h)%nat -> setup_hod_settings_mm h r = Ok (h', mm) ->
  (* nothing that existed is changed *)
  (forall q, (q < List.length h)%nat -> hget h' q = hget h q) /\ mm = List.length h /\
  dget (hget h' mm) "nobs" = Some (SNum 100) /\
  dget (hget h' mm) "observables_file" = dget (hget h r) "observables_file" /\
  dget (hget h' mm) "observable_h_unit" = dget (hget h r) "observable_h_unit" /\
  (dget (hget h r) "observables_file" = Some SNone ->
     singleton_of least (hget h r) "obs_min" (dget (hget h' mm) "obs_min") /\
     singleton_of greatest (hget h r) "obs_max" (dget (hget h' mm) "obs_max") /\
     singleton_of least (hget h r) "zmin" (dget (hget h' mm) "zmin") /\
     singleton_of greatest (hget h r) "zmax" (dget (hget h' mm) "zmax") /\
     dget (hget h' mm) "nz" = Some (SNum 15)).
Proof.
  intros Hr H. unfold setup_hod_settings_mm in H. set (m := List.length h) in *. set (h0 := (h ++ [hget h r])%list) in *.
  assert (L0 : List.length h0 = S m) by (unfold h0; rewrite app_length; cbn; lia).
  assert (G0 : hget h0 m = hget h r) by apply hget_app.
  assert (O0 : forall q, (q < m)%nat -> hget h0 q = hget h q) by (intros; now apply hget_app_old).
  rewrite G0 in H.
  destruct (dget (hget h r) "observables_file") as [[|f|l|n]|] eqn:F; cbn [bind] in H; try discriminate;
    try (injection H as <- <-; split; [intros q Hq; rewrite assign_get by lia; destruct (Nat.eq_dec q m); [lia|now apply O0]|];
         split; [reflexivity|]; rewrite assign_get by lia; destruct (Nat.eq_dec m m); [|lia]; rewrite G0, !dget_dset;
         split; [destruct (string_dec "nobs" "nobs"); congruence|];
         split; [destruct (string_dec "observables_file" "nobs"); [discriminate|exact F]|];
         split; [destruct (string_dec "observable_h_unit" "nobs"); [discriminate|reflexivity]|discriminate]).
  (* no file *)
  rewrite O0 in H by lia.
  destruct (get_arr (hget h r) "obs_min") as [l1|] eqn:A1; cbn [bind] in H; [|discriminate].
  destruct (arr_min l1) as [v1|] eqn:M1; cbn [bind] in H; [|discriminate].
  set (h1 := assign_key h0 m "obs_min" (SArr [v1])) in *.
  assert (L1 : List.length h1 = S m) by (unfold h1; now rewrite assign_length).
  assert (O1 : forall q, (q < m)%nat -> hget h1 q = hget h q).
  { intros q Hq. unfold h1. rewrite assign_get by lia. destruct (Nat.eq_dec q m); [lia|]. now apply O0. }
  rewrite O1 in H by lia.
  destruct (get_arr (hget h r) "obs_max") as [l2|] eqn:A2; cbn [bind] in H; [|discriminate].
  destruct (arr_max l2) as [v2|] eqn:M2; cbn [bind] in H; [|discriminate].
  set (h2 := assign_key h1 m "obs_max" (SArr [v2])) in *.
  assert (L2 : List.length h2 = S m) by (unfold h2; now rewrite assign_length).
  assert (O2 : forall q, (q < m)%nat -> hget h2 q = hget h q).
  { intros q Hq. unfold h2. rewrite assign_get by lia. destruct (Nat.eq_dec q m); [lia|]. now apply O1. }
  rewrite O2 in H by lia.
  destruct (get_arr (hget h r) "zmin") as [l3|] eqn:A3; cbn [bind] in H; [|discriminate].
  destruct (arr_min l3) as [v3|] eqn:M3; cbn [bind] in H; [|discriminate].
  set (h3 := assign_key h2 m "zmin" (SArr [v3])) in *.
  assert (L3 : List.length h3 = S m) by (unfold h3; now rewrite assign_length).
  assert (O3 : forall q, (q < m)%nat -> hget h3 q = hget h q).
  { intros q Hq. unfold h3. rewrite assign_get by lia. destruct (Nat.eq_dec q m); [lia|]. now apply O2. }
  rewrite O3 in H by lia.
  destruct (get_arr (hget h r) "zmax") as [l4|] eqn:A4; cbn [bind] in H; [|discriminate].
  destruct (arr_max l4) as [v4|] eqn:M4; cbn [bind] in H; [|discriminate].
  set (h4 := assign_key h3 m "zmax" (SArr [v4])) in *.
  assert (L4 : List.length h4 = S m) by (unfold h4; now rewrite assign_length).
  assert (O4 : forall q, (q < m)%nat -> hget h4 q = hget h q).
  { intros q Hq. unfold h4. rewrite assign_get by lia. destruct (Nat.eq_dec q m); [lia|]. now apply O3. }
  set (h5 := assign_key h4 m "nz" (SNum 15)) in *.
  assert (L5 : List.length h5 = S m) by (unfold h5; now rewrite assign_length).
  assert (O5 : forall q, (q < m)%nat -> hget h5 q = hget h q).
  { intros q Hq. unfold h5. rewrite assign_get by lia. destruct (Nat.eq_dec q m); [lia|]. now apply O4. }
  injection H as <- <-.
  split. { intros q Hq. rewrite assign_get by lia. destruct (Nat.eq_dec q m); [lia|]. now apply O5. }
  split; [reflexivity|].
  assert (G : hget (assign_key h5 m "nobs" (SNum 100)) m
     = dset (dset (dset (dset (dset (dset (hget h r) "obs_min" (SArr [v1])) "obs_max" (SArr [v2])) "zmin" (SArr [v3])) "zmax" (SArr [v4])) "nz" (SNum 15)) "nobs" (SNum 100)).
  { rewrite assign_get by lia. destruct (Nat.eq_dec m m); [|lia]. f_equal.
    unfold h5. rewrite assign_get by lia. destruct (Nat.eq_dec m m); [|lia]. f_equal.
    unfold h4. rewrite assign_get by lia. destruct (Nat.eq_dec m m); [|lia]. f_equal.
    unfold h3. rewrite assign_get by lia. destruct (Nat.eq_dec m m); [|lia]. f_equal.
    unfold h2. rewrite assign_get by lia. destruct (Nat.eq_dec m m); [|lia]. f_equal.
    unfold h1. rewrite assign_get by lia. destruct (Nat.eq_dec m m); [|lia]. f_equal. exact G0. }
  rewrite G.
  split; [dsimp; reflexivity|]. split; [dsimp; assumption|]. split; [dsimp; reflexivity|]. intros _.
  apply get_arr_ok in A1, A2, A3, A4.
  split; [exists l1, v1; split; [exact A1|]; split; [dsimp; reflexivity|now apply arr_min_spec]|].
  split; [exists l2, v2; split; [exact A2|]; split; [dsimp; reflexivity|now apply arr_max_spec]|].
  split; [exists l3, v3; split; [exact A3|]; split; [dsimp; reflexivity|now apply arr_min_spec]|].
  split; [exists l4, v4; split; [exact A4|]; split; [dsimp; reflexivity|now apply arr_max_spec]|].
  dsimp. reflexivity.
Qed.
(** A run with an observables file stops with KeyError. *)
Lemma setup_file_keyerror f a b c d nz nobs u : setup_hod_galaxy (setup_hod_settings (Some f) a b c d nz nobs u) = Err "KeyError".
Proof. reflexivity. Qed.
Lemma setup_limits a0 a b0 b c0 c d0 d nz nobs u :
  exists h mm, setup_hod_galaxy (setup_hod_settings None (a0 :: a) (b0 :: b) (c0 :: c) (d0 :: d) nz nobs u) = Ok (h, mm, S (List.length a)).
Proof. eexists _, _. reflexivity. Qed.

(** ** Interpolation *)
Lemma log_linear_pos n k p q : (0 < log_linear_k n k p q)%R. Proof. apply exp_pos. Qed.
Lemma ln_incr n (k : A1) : (forall i, (i < n)%nat -> (0 < k i)%R) -> incr n k -> incr n (fun i => ln (k i)).
Proof. intros P H i L. apply ln_increasing; [apply P; lia|]. apply H, L. Qed.
Lemma log_linear_node n (k p : A1) i : (2 <= n)%nat -> (forall i, (i < n)%nat -> (0 < k i)%R) -> incr n k ->
  (i < n)%nat -> (0 < p i)%R -> log_linear_k n k p (k i) = p i.
Proof.
  intros N P I L Q. unfold log_linear_k. rewrite (interp_node n (fun i => ln (k i)) (fun i => ln (p i)) i N (ln_incr n k P I) L).
  now apply exp_ln.
Qed.
Lemma log_linear_power n (k p : A1) A s q : (2 <= n)%nat -> (forall i, (i < n)%nat -> (0 < k i)%R) -> incr n k ->
  (0 < A)%R -> (0 < q)%R -> (forall i, (i < n)%nat -> p i = (A * Rpower (k i) s)%R) ->
  log_linear_k n k p q = (A * Rpower q s)%R.
Proof.
  intros N P I HA Hq Hp. unfold log_linear_k.
  rewrite (interp_ext n _ _ (fun i => ln A + s * ln (k i))%R _ N).
  - rewrite (interp_affine n (fun i => ln (k i)) (ln q) (ln A) s N (ln_incr n k P I)).
    rewrite exp_plus, exp_ln by exact HA. reflexivity.
  - intros i L. rewrite Hp by exact L. rewrite ln_mult; [|exact HA|apply exp_pos]. f_equal. unfold Rpower. apply ln_exp.
Qed.
Lemma log_linear_hull n (k p : A1) lo hi q : (2 <= n)%nat -> (forall i, (i < n)%nat -> (0 < k i)%R) -> incr n k ->
  (0 < lo)%R -> (forall i, (i < n)%nat -> (lo <= p i <= hi)%R) -> (k 0%nat <= q <= k (n - 1)%nat)%R ->
  (lo <= log_linear_k n k p q <= hi)%R.
Proof.
  intros N P I L H Q. unfold log_linear_k.
  assert (0 < k 0%nat)%R by (apply P; lia).
  assert (B : (ln lo <= interp_lin n (fun i => ln (k i)) (fun i => ln (p i)) (ln q) <= ln hi)%R).
  { assert (LN : forall a b, (0 < a)%R -> (a <= b)%R -> (ln a <= ln b)%R).
    { intros a b Ha [Hb|<-]; [left; now apply ln_increasing|lra]. }
    apply interp_bounds; [exact N|now apply ln_incr|apply LN; lra|apply LN; lra|].
    intros i Hi. specialize (H i Hi). split; apply LN; lra. }
  assert (E : forall a b, (a <= b)%R -> (exp a <= exp b)%R).
  { intros a b [Hb|<-]; [left; now apply exp_increasing|lra]. }
  assert (0 < hi)%R by (specialize (H 0%nat ltac:(lia)); lra).
  split; [rewrite <- (exp_ln lo L)|rewrite <- (exp_ln hi) by assumption]; apply E; apply B.
Qed.
(** interpolate_in_z *)
Lemma in_z_spec n (z : A1) (g : A2) : (2 <= n)%nat -> incr n z ->
  (forall q, (exists r, interpolate_in_z n z g q = Ok r) <-> (z 0%nat <= q <= z (n - 1)%nat)%R) /\
  (forall q, ~ (z 0%nat <= q <= z (n - 1)%nat)%R -> interpolate_in_z n z g q = Err "ValueError") /\
  (forall i r k, (i < n)%nat -> interpolate_in_z n z g (z i) = Ok r -> r k = g i k) /\
  (forall q r k lo hi, interpolate_in_z n z g q = Ok r -> (forall i, (i < n)%nat -> (lo <= g i k <= hi)%R) -> (lo <= r k <= hi)%R) /\
  (forall q r k a b, interpolate_in_z n z g q = Ok r -> (forall i, (i < n)%nat -> g i k = (a + b * z i)%R) -> r k = (a + b * q)%R).
Proof.
  intros N I. unfold interpolate_in_z. split; [|split; [|split; [|split]]].
  - intro q. destruct (Rlt_dec q (z 0%nat)); [split; [intros [? H]; discriminate|lra]|].
    destruct (Rlt_dec (z (n - 1)%nat) q); [split; [intros [? H]; discriminate|lra]|]. split; [lra|eauto].
  - intros q H. destruct (Rlt_dec q (z 0%nat)); [reflexivity|]. destruct (Rlt_dec (z (n - 1)%nat) q); [reflexivity|]. exfalso. apply H. lra.
  - intros i r k L. destruct (Rlt_dec (z i) (z 0%nat)); [discriminate|]. destruct (Rlt_dec (z (n - 1)%nat) (z i)); [discriminate|].
    intro H. injection H as <-. exact (interp_node n z (fun i => g i k) i N I L).
  - intros q r k lo hi. destruct (Rlt_dec q (z 0%nat)); [discriminate|]. destruct (Rlt_dec (z (n - 1)%nat) q); [discriminate|].
    intro H. injection H as <-. intro B. apply interp_bounds; [exact N|exact I|lra|lra|exact B].
  - intros q r k a b. destruct (Rlt_dec q (z 0%nat)); [discriminate|]. destruct (Rlt_dec (z (n - 1)%nat) q); [discriminate|].
    intro H. injection H as <-. intro B. rewrite (interp_ext n z _ (fun i => a + b * z i)%R q N B). now apply interp_affine.
Qed.
