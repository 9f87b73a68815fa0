(** The caching facts for the attribute table of class Spectra. *)
From Coq Require Import String List Bool Arith Lia.
From Verif Require Import CacheModel CacheTable CacheSpec CacheFacts.
Import ListNotations.
Open Scope string_scope.
Open Scope list_scope.

(** ** Checks of the whole table by computation *)
Lemma shape_of_all (X : string -> sh -> Prop) t q :
  X q SRet ->
  (forall e, In e t -> X (fst e) (comp (snd e))) ->
  X q (shape_of t q).
Proof.
  intros H0 H. unfold shape_of. destruct (find _ t) as [e|] eqn:F; [|exact H0].
  apply find_some in F. destruct F as [I E]. apply String.eqb_eq in E. subst. now apply H.
Qed.

Fixpoint guardedb (sw se : list string) (s : sh) : bool :=
  match s with
  | SRet => true
  | SP _ s => guardedb sw se s
  | SQ _ s => guardedb sw se s
  | SIf p _ a b => (mem p sw || mem p se) && guardedb sw se a && guardedb sw se b
  end.
Lemma guardedb_ok sw se s : guardedb sw se s = true -> guarded sw se s.
Proof.
  induction s; simpl; intro H; constructor; auto.
  - apply andb_true_iff in H. destruct H as [H _]. apply andb_true_iff in H. destruct H as [H _].
    apply orb_true_iff in H. rewrite !mem_In in H. exact H.
  - apply IHs1. apply andb_true_iff in H. destruct H as [H _]. apply andb_true_iff in H. tauto.
  - apply IHs2. apply andb_true_iff in H. tauto.
Qed.

Lemma spectra_guarded q : guarded spectra_switches spectra_selectors (spectra_shape q).
Proof.
  unfold spectra_shape.
  apply (shape_of_all (fun _ s => guarded spectra_switches spectra_selectors s)); [constructor|].
  intros e H. apply guardedb_ok.
  assert (A : forallb (fun e => guardedb spectra_switches spectra_selectors (comp (snd e)))
                spectra_bodies = true) by (vm_compute; reflexivity).
  rewrite forallb_forall in A. now apply A.
Qed.

(** Position in the table: every entry reads only earlier ones. *)
Fixpoint position (t : list (string * list step)) (q : string) : nat :=
  match t with
  | [] => 0
  | e :: t => if String.eqb (fst e) q then length t + 1 else position t q
  end.
Definition spectra_rank (q : string) : nat := position (rev spectra_bodies) q.

Fixpoint belowb (rank : string -> nat) (n : nat) (s : sh) : bool :=
  match s with
  | SRet => true
  | SP _ s => belowb rank n s
  | SQ q s => Nat.ltb (rank q) n && belowb rank n s
  | SIf _ _ a b => belowb rank n a && belowb rank n b
  end.
Lemma belowb_ok rank n s : belowb rank n s = true -> below rank n s.
Proof.
  induction s; simpl; intro H; auto; try apply andb_true_iff in H.
  - destruct H as [H1 H2]. apply Nat.ltb_lt in H1. auto.
  - destruct H. auto.
Qed.

Lemma spectra_ranked q : below spectra_rank (spectra_rank q) (spectra_shape q).
Proof.
  unfold spectra_shape.
  apply (shape_of_all (fun q s => below spectra_rank (spectra_rank q) s)); [exact I|].
  intros e H. apply belowb_ok.
  assert (A : forallb (fun e => belowb spectra_rank (spectra_rank (fst e)) (comp (snd e)))
                spectra_bodies = true) by (vm_compute; reflexivity).
  rewrite forallb_forall in A. exact (A e H).
Qed.

(** ** Quantities that cannot reach omega_m, given classes that do not occur *)
Section Clean.
  Variable V : Type.
  Variable sel : string -> V -> string.
  Variable bad : list string.              (* quantities that may reach a permanent *)
  Variable excluded : list (string * string).  (* classes that do not occur *)

  Definition ruled_out (p : string) (vs : list string) : bool :=
    forallb (fun v => existsb (fun x => String.eqb (fst x) p && String.eqb (snd x) v) excluded) vs.

  Fixpoint cleanb (s : sh) : bool :=
    match s with
    | SRet => true
    | SP _ s => cleanb s
    | SQ q s => negb (mem q bad) && cleanb s
    | SIf p vs a b => if ruled_out p vs then cleanb b else cleanb a && cleanb b
    end.

  Variable e : string -> V.
  Hypothesis absent : forall p c, In (p, c) excluded -> sel p (e p) <> c.

  Lemma ruled_out_ok p vs : ruled_out p vs = true -> mem (sel p (e p)) vs = false.
  Proof.
    intro H. apply mem_not. intro I. unfold ruled_out in H. rewrite forallb_forall in H.
    specialize (H _ I). apply existsb_exists in H. destruct H as ([p' c] & J & E).
    simpl in E. apply andb_true_iff in E. destruct E as [E1 E2].
    apply String.eqb_eq in E1. apply String.eqb_eq in E2. subst.
    exact (absent _ _ J eq_refl).
  Qed.

  Variable safe : string -> bool.
  Hypothesis bad_omega : mem "omega_m" bad = true.
  Hypothesis rest : forall q, mem q bad = false -> cleanb (spectra_shape q) = true.

  Lemma clean_trace n : forall s, below spectra_rank n s -> cleanb s = true ->
    exists d, trace V sel spectra_shape spectra_permanent safe e s d false.
  Proof.
    induction n as [n IH] using (well_founded_induction lt_wf).
    induction s as [|p s IHs|q s IHs|p vs a IHa b IHb]; simpl; intros B C.
    - exists []. constructor.
    - destruct (IHs B C) as [d T]. exists (p :: d). now constructor.
    - destruct B as [R B]. apply andb_true_iff in C. destruct C as [N C].
      apply negb_true_iff in N.
      destruct (IHs B C) as [d T].
      destruct (IH _ R (spectra_shape q) (spectra_ranked q) (rest q N)) as [d0 T0].
      exists (d0 ++ d). apply (t_q _ _ _ _ _ e q s d0 false d false); auto.
      left. apply mem_not. intros [<-|[]]. congruence.
    - destruct B as [Ba Bb]. destruct (ruled_out p vs) eqn:O.
      + destruct (IHb Bb C) as [d T]. exists (p :: d). constructor.
        now rewrite (ruled_out_ok _ _ O).
      + apply andb_true_iff in C. destruct C as [Ca Cb].
        destruct (mem (sel p (e p)) vs) eqn:E.
        * destruct (IHa Ba Ca) as [d T]. exists (p :: d). constructor. now rewrite E.
        * destruct (IHb Bb Cb) as [d T]. exists (p :: d). constructor. now rewrite E.
  Qed.

  Lemma clean_query q : mem q bad = false ->
    exists d, trace V sel spectra_shape spectra_permanent safe e (SQ q SRet) d false.
  Proof.
    intro N. apply (clean_trace (S (spectra_rank q))).
    - simpl. split; [lia|exact I].
    - simpl. now rewrite N.
  Qed.
End Clean.

Lemma clean_rest bad excluded :
  forallb (fun e => mem (fst e) bad || cleanb bad excluded (comp (snd e))) spectra_bodies = true ->
  forall q, mem q bad = false -> cleanb bad excluded (spectra_shape q) = true.
Proof.
  intros A q N. rewrite forallb_forall in A. unfold spectra_shape, shape_of.
  destruct (find _ spectra_bodies) as [e|] eqn:F; [|reflexivity].
  apply find_some in F. destruct F as [I E]. apply String.eqb_eq in E.
  specialize (A e I). simpl in E. rewrite E, N in A. exact A.
Qed.

(** ** The theorems *)
Section Spectra.
  Variable V : Type.
  Variable sel : string -> V -> string.
  Variable code : string -> prog V.
  Hypothesis conform : spectra_code sel code.

  Lemma unsafe_frozen : forall q e d t,
    mem q spectra_permanent = true -> (fun _ : string => false) q = true ->
    trace V sel spectra_shape spectra_permanent (fun _ => false) e (spectra_shape q) d t ->
    incl d [].
  Proof. intros; discriminate. Qed.

  Lemma independent e s q : spectra_session sel code [] e s -> ~ In q through_omega_m ->
    reads_as_new code s q.
  Proof.
    intros S N v s' R v' s'' R'. apply mem_not in N.
    destruct (clean_query V sel through_omega_m [] (par s)) with (safe := fun _ : string => false)
      (q := q) as [d T]; auto.
    - apply clean_rest. vm_compute. reflexivity.
    - exact (read_fresh V sel code spectra_shape spectra_permanent spectra_switches
        spectra_selectors [] (fun _ => false) conform unsafe_frozen spectra_guarded
        e s q v s' d S R T v' s'' R').
  Qed.

  Lemma without_feedback e s q :
    spectra_session sel code [] e s ->
    (forall p c, In (p, c) no_feedback -> sel p (par s p) <> c) ->
    sel "nonlinear_mode" (par s "nonlinear_mode") <> "bnl" \/
    sel "beta_nl" (par s "beta_nl") <> "None" ->
    ~ In q ["omega_m"; "calc_bnl"; "matter_profile_with_feedback"; "_beta_nl_array"] ->
    reads_as_new code s q.
  Proof.
    intros S A [B|B] N v s' R v' s'' R'; apply mem_not in N.
    - destruct (clean_query V sel ["omega_m"; "calc_bnl"; "matter_profile_with_feedback"; "_beta_nl_array"]
        (("nonlinear_mode", "bnl") :: no_feedback) (par s)) with (safe := fun _ : string => false)
        (q := q) as [d T]; auto.
      + intros p c [E|I]; [injection E as <- <-; exact B | now apply A].
      + apply clean_rest. vm_compute. reflexivity.
      + exact (read_fresh V sel code spectra_shape spectra_permanent spectra_switches
          spectra_selectors [] (fun _ => false) conform unsafe_frozen spectra_guarded
          e s q v s' d S R T v' s'' R').
    - destruct (clean_query V sel ["omega_m"; "calc_bnl"; "matter_profile_with_feedback"]
        (("beta_nl", "None") :: no_feedback) (par s)) with (safe := fun _ : string => false)
        (q := q) as [d T]; auto.
      + intros p c [E|I]; [injection E as <- <-; exact B | now apply A].
      + apply clean_rest. vm_compute. reflexivity.
      + simpl in *. repeat (destruct (String.eqb q _); [discriminate|]). reflexivity.
      + exact (read_fresh V sel code spectra_shape spectra_permanent spectra_switches
          spectra_selectors [] (fun _ => false) conform unsafe_frozen spectra_guarded
          e s q v s' d S R T v' s'' R').
  Qed.

  Lemma omega_frozen : forall q e d t,
    mem q spectra_permanent = true -> (fun q => mem q spectra_permanent) q = true ->
    trace V sel spectra_shape spectra_permanent (fun q => mem q spectra_permanent) e (spectra_shape q) d t ->
    incl d cosmology.
  Proof.
    intros q e d t M _ T. apply mem_In in M. destruct M as [<-|[]].
    change (spectra_shape "omega_m") with (SQ "cosmo_model" SRet) in T.
    inversion T as [| | |q s d0 t0 d1 t1 _ T0 T1|]; subst; [|discriminate].
    inversion T1; subst. rewrite app_nil_r. clear T T1.
    change (spectra_shape "cosmo_model") with
      (comp [P "h0"; P "omega_b"; P "omega_c"; P "Neff"; P "m_nu"; P "tcmb"; P "w0"; P "wa"]) in T0.
    simpl in T0.
    repeat match goal with X : trace _ _ _ _ _ _ _ _ _ |- _ => inversion X; subst; clear X end.
    intros x Hx. exact Hx.
  Qed.

  Lemma any_trace n : forall e s, below spectra_rank n s ->
    exists d, trace V sel spectra_shape spectra_permanent (fun q => mem q spectra_permanent) e s d false.
  Proof.
    induction n as [n IH] using (well_founded_induction lt_wf). intro e.
    induction s as [|p s IHs|q s IHs|p vs a IHa b IHb]; simpl; intros B.
    - exists []. constructor.
    - destruct (IHs B) as [d T]. exists (p :: d). now constructor.
    - destruct B as [R B]. destruct (IHs B) as [d T].
      destruct (IH _ R e (spectra_shape q) (spectra_ranked q)) as [d0 T0].
      exists (d0 ++ d). apply (t_q _ _ _ _ _ e q s d0 false d false); auto.
      destruct (mem q spectra_permanent) eqn:Z; [right; exact Z|now left].
    - destruct B as [Ba Bb].
      destruct (mem (sel p (e p)) vs) eqn:E.
      + destruct (IHa Ba) as [d T]. exists (p :: d). constructor. now rewrite E.
      + destruct (IHb Bb) as [d T]. exists (p :: d). constructor. now rewrite E.
  Qed.

  Lemma cosmology_kept e s q : spectra_session sel code cosmology e s -> reads_as_new code s q.
  Proof.
    intros HS v s' R v' s'' R'.
    destruct (any_trace (S (spectra_rank q)) (par s) (SQ q SRet)) as [d T].
    - simpl. split; [lia|exact I].
    - exact (read_fresh V sel code spectra_shape spectra_permanent spectra_switches
        spectra_selectors cosmology (fun q => mem q spectra_permanent) conform omega_frozen
        spectra_guarded e s q v s' d HS R T v' s'' R').
  Qed.

  Lemma spectra_total s q : exists v s', read code spectra_permanent s q v s'.
  Proof.
    exact (read_total V sel code spectra_shape spectra_permanent spectra_rank conform
      spectra_ranked s q).
  Qed.
End Spectra.

(** ** A concrete instance: values are numbers, bodies add up what they read *)
Definition ex_classes : list string :=
  ["False"; "None"; "bnl"; "hmcode"; "fortuna"; "mead2020"; "mead2020_feedback"; "fit"; "True"; "Cacciato"].
Definition ex_sel (p : string) (n : nat) : string := nth n ex_classes "".
Definition ex_code (q : string) : prog nat := adder ex_sel (spectra_shape q) 0.
Lemma ex_conform : spectra_code ex_sel ex_code.
Proof. intro q. apply adder_shape. Qed.

Definition ex_read (s : object nat) (q : string) : option (nat * object nat) :=
  match exec ex_code spectra_permanent 300 s (RQ q Ret) with
  | Some (v, _, s') => Some (v, s')
  | None => None
  end.
Definition ex_set (s : object nat) (p : string) (v : nat) : object nat :=
  if Nat.eqb (par s p) v then s
  else {| par := put (par s) p v;
          cache := fun q => touch spectra_permanent spectra_switches p q (cache s q) |}.

Lemma ex_read_ok s q v s' : ex_read s q = Some (v, s') -> read ex_code spectra_permanent s q v s'.
Proof.
  unfold ex_read. destruct (exec _ _ _ _ _) as [[[w d] s1]|] eqn:E; [|discriminate].
  intro H. injection H as <- <-. exists d. now apply exec_run in E.
Qed.
Lemma ex_set_ok s p v : update spectra_permanent spectra_switches s p v (ex_set s p v).
Proof.
  unfold ex_set. destruct (Nat.eqb_spec (par s p) v); [now apply update_same | now apply update_new].
Qed.

(** All parameters 0 except the ones set here. *)
Definition ex_par (l : list (string * nat)) (p : string) : nat :=
  match find (fun x => String.eqb (fst x) p) l with Some x => snd x | None => 0 end.

Definition after {A} (o : option (nat * A)) (d : A) : A := match o with Some (_, a) => a | None => d end.
Definition got {A} (o : option (nat * A)) : option nat := match o with Some (v, _) => Some v | None => None end.

Definition fb_par : string -> nat :=
  ex_par [("hmcode_ingredients", 6); ("omega_c", 1)].
Definition fb_0 : object nat := fresh fb_par.
Definition fb_1 : object nat := after (ex_read fb_0 "power_spectrum_mm") fb_0.
Definition fb_2 : object nat := ex_set fb_1 "omega_c" 2.

Lemma got_some {A} (o : option (nat * A)) v : got o = Some v -> exists a, o = Some (v, a).
Proof. destruct o as [[w a]|]; simpl; [|discriminate]. intro H. injection H as ->. now exists a. Qed.
Lemma after_some {A} (o : option (nat * A)) v a d : o = Some (v, a) -> after o d = a.
Proof. now intros ->. Qed.

Lemma ex_stale s q v v' :
  got (ex_read s q) = Some v -> got (ex_read (fresh (par s)) q) = Some v' -> v' <> v ->
  ~ reads_as_new ex_code s q.
Proof.
  intros A B N H. destruct (got_some _ _ A) as [s' E]. destruct (got_some _ _ B) as [s'' E'].
  exact (N (H _ _ (ex_read_ok _ _ _ _ E) _ _ (ex_read_ok _ _ _ _ E'))).
Qed.
Lemma ex_after s q v : got (ex_read s q) = Some v ->
  read ex_code spectra_permanent s q v (after (ex_read s q) s).
Proof.
  intro G. destruct (got_some _ _ G) as [s' E].
  rewrite (after_some _ _ _ s E). exact (ex_read_ok _ _ _ _ E).
Qed.
Lemma ex_session_read frozen e s q v :
  got (ex_read s q) = Some v -> spectra_session ex_sel ex_code frozen e s ->
  spectra_session ex_sel ex_code frozen e (after (ex_read s q) s).
Proof. intros G S. exact (s_read _ _ _ _ _ _ _ _ _ _ _ S (ex_after s q v G)). Qed.
Lemma ex_session_set frozen e s p v :
  spectra_session ex_sel ex_code frozen e s ->
  allowed ex_sel spectra_switches spectra_selectors frozen (par s) p v ->
  spectra_session ex_sel ex_code frozen e (ex_set s p v).
Proof. intros S A. eapply s_set; [exact S|exact A|apply ex_set_ok]. Qed.
Lemma plain_allowed frozen (e : string -> nat) p v :
  mem p frozen = false -> mem p spectra_selectors = false ->
  allowed ex_sel spectra_switches spectra_selectors frozen e p v.
Proof. intros F S. apply mem_not in F, S. split; [exact F|]. intro I. contradiction. Qed.

(** pk.py: HMCode with feedback; the cosmology is updated between two reads. *)
Lemma omega_m_stale :
  exists (sel : string -> nat -> string) (code : string -> prog nat) e s,
    spectra_code sel code /\ spectra_session sel code [] e s /\
    ~ reads_as_new code s "power_spectrum_mm" /\ ~ reads_as_new code s "omega_m".
Proof.
  exists ex_sel, ex_code, fb_par, fb_2. split; [exact ex_conform|]. split; [|split].
  - apply ex_session_set; [|now apply plain_allowed].
    eapply ex_session_read with (v := 1044); [vm_compute; reflexivity|]. apply s_new.
  - apply (ex_stale _ _ 1157 1158); [vm_compute; reflexivity|vm_compute; reflexivity|discriminate].
  - apply (ex_stale _ _ 1 2); [vm_compute; reflexivity|vm_compute; reflexivity|discriminate].
Qed.

(** The ingredients are switched between two reads, then a parameter is updated that the
    first computation did not read: hmcode_ingredients is not declared a switch. *)
Definition sw_par : string -> nat := ex_par [("hmcode_ingredients", 1); ("log10T_AGN", 7)].
Definition sw_1 : object nat := after (ex_read (fresh sw_par) "K") (fresh sw_par).
Definition sw_2 : object nat := ex_set sw_1 "hmcode_ingredients" 6.
Definition sw_3 : object nat := after (ex_read sw_2 "K") sw_2.
Definition sw_4 : object nat := ex_set sw_3 "log10T_AGN" 8.

Lemma selector_stale :
  exists (sel : string -> nat -> string) (code : string -> prog nat) e s0 s1 s2 v s3 s4,
    spectra_code sel code /\ spectra_session sel code [] e s0 /\
    read code spectra_permanent s0 "K" v s1 /\
    update spectra_permanent spectra_switches s1 "hmcode_ingredients" 6 s2 /\
    (exists w, read code spectra_permanent s2 "K" w s3) /\
    update spectra_permanent spectra_switches s3 "log10T_AGN" 8 s4 /\
    ~ reads_as_new code s4 "K".
Proof.
  exists ex_sel, ex_code, sw_par, (fresh sw_par), sw_1, sw_2, 2, sw_3, sw_4.
  split; [exact ex_conform|]. split; [apply s_new|].
  split; [apply ex_after; vm_compute; reflexivity|]. split; [apply ex_set_ok|]. split.
  { exists 19. apply ex_after. vm_compute. reflexivity. }
  split; [apply ex_set_ok|].
  apply (ex_stale _ _ 19 20); [vm_compute; reflexivity|vm_compute; reflexivity|discriminate].
Qed.

(** A history with reads, a switch change and updates of data, cosmology and options. *)
Definition ok_par : string -> nat :=
  ex_par [("hmcode_ingredients", 5); ("nonlinear_mode", 3); ("beta_nl", 1); ("omega_c", 1);
          ("matter_power_lin", 20); ("hod_model", 9)].
Definition ok_1 := after (ex_read (fresh ok_par) "power_spectrum_gm") (fresh ok_par).
Definition ok_2 := ex_set ok_1 "omega_c" 2.
Definition ok_3 := ex_set ok_2 "nonlinear_mode" 4.
Definition ok_4 := after (ex_read ok_3 "power_spectrum_gi") ok_3.
Definition ok_5 := ex_set ok_4 "matter_power_lin" 30.
Definition ok_6 := ex_set ok_5 "t_eff" 3.

Lemma ok_session : spectra_session ex_sel ex_code [] ok_par ok_6.
Proof.
  unfold ok_6. apply ex_session_set; [|now apply plain_allowed].
  unfold ok_5. apply ex_session_set; [|split; [intros []|intros _ _; vm_compute; reflexivity]].
  unfold ok_4. eapply ex_session_read with (v := 2592); [vm_compute; reflexivity|].
  unfold ok_3. apply ex_session_set; [|now apply plain_allowed].
  unfold ok_2. apply ex_session_set; [|now apply plain_allowed].
  unfold ok_1. eapply ex_session_read with (v := 3522); [vm_compute; reflexivity|].
  apply s_new.
Qed.
Lemma ok_read : exists s', read ex_code spectra_permanent ok_6 "power_spectrum_gi" 2605 s'.
Proof. eexists. apply ex_after. vm_compute. reflexivity. Qed.
Lemma ok_read_new : exists s', read ex_code spectra_permanent (fresh (par ok_6)) "power_spectrum_gi" 2605 s'.
Proof. eexists. apply ex_after. vm_compute. reflexivity. Qed.
