(** Lemmas about UpsampledSpectra. *)
From Coq Require Import FunctionalExtensionality.
From Verif Require Import Base Spec Interp InterpFacts BaseFacts HodModel PkModel AddModel AddSpec.
Open Scope R_scope.

Section AddFacts.
  Context {A : api}.
  Implicit Types (p : uparams A) (heap : nat -> obj A) (c : cells A) (s : ups A).

  (** The memo cells agree with the parameters. *)
  Definition valid p heap c : Prop :=
    (forall f, c_frac1 c = Some f -> frac_1_value p = Ok f) /\
    (forall x, c_power1 c = Some x -> power_1_value p = Ok x) /\
    (forall o, c_power2 c = Some o ->
       match u_m2 p with
       | None => o = None
       | Some _ => exists x, power_1_value p = Ok x /\ power_2_value p (deref heap x) = Ok o
       end).

  (** The value of one component, without memo cells. *)
  Definition pure2 p heap (o1 : obj A) : res (option (obj A)) := power_2_value p o1.
  Definition pure p heap (mode comp : string) : res arr3 :=
    bind (power_1_value p) (fun x =>
    let o1 := deref heap x in
    bind (bind (o_spec A o1 mode) (component comp)) (fun q1 =>
    bind (bind (power_2_value p o1) (fun o2 => match o2 with
        | None => Ok (fun _ _ _ => 0)
        | Some o2 => bind (bind (o_spec A o2 mode) (component comp)) (fun q2 => Ok (extrapolate p o2 q2))
        end)) (fun e2 =>
    if String.eqb mode "mm" then Ok {| r_rows := u_nz p; r_val := extrapolate p o1 q1 |}
    else bind (frac_1_value p) (fun f => add_spectra f (u_nz p) (extrapolate p o1 q1) e2 mode)))).

  Lemma one_component_pure p heap mode comp c : valid p heap c ->
    valid p heap (fst (one_component p heap mode comp c)) /\
    snd (one_component p heap mode comp c) = pure p heap mode comp.
  Proof.
    intros (Vf & V1 & V2).
    assert (R1 : forall c0, valid p heap c0 ->
       valid p heap (fst (read_power1 p c0)) /\ snd (read_power1 p c0) = power_1_value p /\
       c_power2 (fst (read_power1 p c0)) = c_power2 c0).
    { intros c0 W. assert (W' := W). destruct W' as (Wf & W1 & W2). unfold read_power1. destruct (c_power1 c0) as [x|] eqn:E.
      - simpl. rewrite (W1 x eq_refl). split; [exact W|split; reflexivity].
      - destruct (power_1_value p) as [x|e] eqn:E1; simpl.
        + split; [|split; reflexivity]. destruct W as (Uf & U1 & U2). split; [exact Uf|]. split; [simpl; congruence|exact U2].
        + split; [|split; reflexivity]. exact W. }
    assert (R2 : forall c0 x, valid p heap c0 -> power_1_value p = Ok x ->
       valid p heap (fst (read_power2 p heap c0)) /\ snd (read_power2 p heap c0) = power_2_value p (deref heap x)).
    { intros c0 x W Hx. unfold read_power2. destruct (c_power2 c0) as [o|] eqn:E.
      - split; [exact W|]. simpl. destruct W as (_ & _ & W2). specialize (W2 o E).
        unfold power_2_value in *. destruct (u_m2 p); [|subst; reflexivity].
        destruct W2 as (x' & Hx' & Hv). rewrite Hx in Hx'. inversion Hx'; subst. symmetry; exact Hv.
      - destruct (u_m2 p) as [q|] eqn:Em.
        + destruct (R1 c0 W) as (Wv & Ws & _). destruct (read_power1 p c0) as [c1 rs]. simpl in *.
          rewrite Ws, Hx. destruct (power_2_value p (deref heap x)) as [o|e] eqn:E2; simpl; split; auto.
          destruct Wv as (Wf & W1 & W2). repeat split; simpl; auto. rewrite Em. intros o' Ho'.
          inversion Ho'; subst. exists x; split; auto.
        + simpl. split; [|unfold power_2_value; rewrite Em; reflexivity].
          destruct W as (Wf & W1 & W2). repeat split; simpl; auto. rewrite Em. congruence. }
    assert (R3 : forall c0, valid p heap c0 ->
       valid p heap (fst (read_frac1 p c0)) /\ snd (read_frac1 p c0) = frac_1_value p).
    { intros c0 W. assert (W' := W). destruct W' as (Wf & W1 & W2). unfold read_frac1. destruct (c_frac1 c0) as [f|] eqn:E.
      - simpl. rewrite (Wf f eq_refl). split; [exact W|reflexivity].
      - destruct (frac_1_value p) as [f|e] eqn:E1; simpl; (split; [|reflexivity]).
        + destruct W as (Uf & U1 & U2). split; [simpl; congruence|]. split; [exact U1|exact U2].
        + exact W. }
    unfold one_component, pure.
    destruct (R1 c (conj Vf (conj V1 V2))) as (W1 & S1 & _).
    destruct (read_power1 p c) as [c1 s1]. simpl in W1, S1. rewrite S1.
    destruct (power_1_value p) as [x|e] eqn:Ex; [|simpl; auto]. cbn [bind].
    destruct (bind (o_spec A (deref heap x) mode) (component comp)) as [q1|e]; [|simpl; auto]. cbn [bind].
    destruct (R2 c1 x W1 eq_refl) as (W2 & S2).
    destruct (read_power2 p heap c1) as [c2 s2]. simpl in W2, S2. rewrite S2.
    match goal with |- context [match ?u with Ok _ => _ | Err _ => _ end] => destruct u as [e2|e] end;
      [|simpl; auto]. cbn [bind].
    destruct (String.eqb mode "mm"); [simpl; auto|].
    destruct (R3 c2 W2) as (W3 & S3). destruct (read_frac1 p c2) as [c3 f]. simpl in W3, S3 |- *.
    rewrite S3. auto.
  Qed.

  (** Components of one mode, without memo cells. *)
  Fixpoint pure_all p heap mode comps acc : res stored :=
    match comps with
    | [] => Ok acc
    | x :: rest => bind (pure p heap mode x) (fun v => pure_all p heap mode rest (set_component x v acc))
    end.

  Lemma components_pure p heap mode comps : forall c acc, valid p heap c ->
    valid p heap (fst (components p heap mode comps c acc)) /\
    snd (components p heap mode comps c acc) = pure_all p heap mode comps acc.
  Proof.
    induction comps as [|x rest IH]; intros c acc V; simpl; [auto|].
    destruct (one_component_pure p heap mode x c V) as (V1 & S1).
    destruct (one_component p heap mode x c) as [c1 v]. simpl in V1, S1. rewrite S1.
    destruct (pure p heap mode x) as [w|e]; simpl; [apply IH; exact V1|auto].
  Qed.

  Fixpoint pure_loop p heap modes comps (out : string -> option stored) : (string -> option stored) * res unit :=
    match modes with
    | [] => (out, Ok tt)
    | m :: rest => match pure_all p heap m comps nothing with
                   | Err e => (out, Err e)
                   | Ok r => pure_loop p heap rest comps (fun x => if String.eqb x m then Some r else out x)
                   end
    end.

  Lemma loop_pure p heap modes comps : forall c out, valid p heap c ->
    valid p heap (fst (fst (results_loop p heap modes comps c out))) /\
    (snd (fst (results_loop p heap modes comps c out)), snd (results_loop p heap modes comps c out))
      = pure_loop p heap modes comps out.
  Proof.
    induction modes as [|m rest IH]; intros c out V; simpl; [auto|].
    destruct (components_pure p heap m comps c nothing V) as (V1 & S1).
    destruct (components p heap m comps c nothing) as [c1 r]. simpl in V1, S1. rewrite S1.
    destruct (pure_all p heap m comps nothing) as [w|e]; simpl; [apply IH; exact V1|auto].
  Qed.

  Definition ok_state s : Prop := valid (us_par s) (us_heap s) (cells_of s).

  Lemma results_pure s modes comps : ok_state s ->
    ok_state (fst (results s modes comps)) /\
    us_par (fst (results s modes comps)) = us_par s /\ us_heap (fst (results s modes comps)) = us_heap s /\
    (us_out (fst (results s modes comps)), snd (results s modes comps))
      = pure_loop (us_par s) (us_heap s) modes comps (us_out s).
  Proof.
    intros V. unfold results.
    destruct (loop_pure (us_par s) (us_heap s) modes comps (cells_of s) (us_out s) V) as (V1 & E).
    destruct (results_loop (us_par s) (us_heap s) modes comps (cells_of s) (us_out s)) as [[c out] r].
    simpl in *. repeat split; auto; try (apply V1). 
  Qed.

  Lemma new_ok p heap : ok_state (new_ups p heap).
  Proof. unfold ok_state, valid, cells_of. simpl. repeat split; intros; discriminate. Qed.

  Lemma frac_sources p p' : same_sources p p' -> frac_1_value p' = frac_1_value p.
  Proof.
    intros (H1 & H2 & H3 & H4 & H5 & H6 & H7). unfold frac_1_value. rewrite H1, H3, H4.
    replace (u_z p') with (u_z p); [reflexivity|]. apply functional_extensionality; intro; symmetry; apply H2.
  Qed.

  Lemma valid_quiet p p' heap c : same_sources p p' -> valid p heap c -> valid p' heap c.
  Proof.
    intros H. pose proof (frac_sources p p' H) as Hf. destruct H as (H1 & H2 & H3 & H4 & H5 & H6 & H7).
    unfold valid, power_1_value, power_2_value. rewrite Hf, H5, H6, H7. auto.
  Qed.

  Lemma step_quiet p0 s e : same_sources p0 (us_par s) -> ok_state s -> quiet p0 e ->
    same_sources p0 (us_par (step s e)) /\ ok_state (step s e).
  Proof.
    intros Hs V Q. destruct e as [p'|modes comps|r o]; simpl in Q |- *.
    - split; [exact Q|]. unfold ok_state in *. simpl.
      apply (valid_quiet (us_par s)); [|exact V].
      destruct Hs as (H1 & H2 & H3 & H4 & H5 & H6 & H7). destruct Q as (G1 & G2 & G3 & G4 & G5 & G6 & G7).
      repeat split; congruence.
    - destruct (results_pure s modes comps V) as (V1 & E1 & _). rewrite E1. auto.
    - split; [exact Hs|]. destruct V as (Vf & V1 & V2). unfold ok_state, valid. simpl. split; [exact Vf|].
      split; [exact V1|]. intros o' Ho'. specialize (V2 o' Ho').
      destruct Hs as (H1 & H2 & H3 & H4 & H5 & H6 & H7). 
      destruct Q as [Q|Q].
      + destruct (u_m2 (us_par s)); [|exact V2]. destruct V2 as (x & Hx & Hp). exists x. split; [exact Hx|].
        assert (E : deref (fun x0 => if Nat.eqb x0 r then o else us_heap s x0) x = deref (us_heap s) x).
        { unfold power_1_value in Hx. rewrite H5 in Hx. destruct (u_model p0) as [r'|].
          - inversion Hx; subst. simpl. destruct (Nat.eqb_spec r' r); [congruence|reflexivity].
          - destruct (construct A (u_m1 (us_par s))); simpl in Hx; inversion Hx; subst; reflexivity. }
        rewrite E. exact Hp.
      + rewrite H7, Q in V2 |- *. exact V2.
  Qed.

  Lemma run_quiet p0 h : forall s, same_sources p0 (us_par s) -> ok_state s -> Forall (quiet p0) h ->
    ok_state (run s h).
  Proof.
    induction h as [|e rest IH]; intros s Hs V Q; [exact V|].
    inversion Q; subst. destruct (step_quiet p0 s e Hs V H1) as (Hs1 & V1). apply (IH (step s e)); assumption.
  Qed.

  Lemma same_refl p : same_sources p p.
  Proof. repeat split. Qed.

  (** Two objects with the same parameters and valid cells store the same. *)
  Lemma pure_loop_out p heap modes comps : forall out out',
    snd (pure_loop p heap modes comps out) = snd (pure_loop p heap modes comps out') /\
    (forall m, (In m modes /\ snd (pure_loop p heap modes comps out) = Ok tt) \/ out m = out' m ->
       fst (pure_loop p heap modes comps out) m = fst (pure_loop p heap modes comps out') m).
  Proof.
    induction modes as [|m0 rest IH]; intros out out'; simpl.
    - split; [reflexivity|]. intros m [[[] _]|E]; exact E.
    - destruct (pure_all p heap m0 comps nothing) as [r|e]; simpl.
      + destruct (IH (fun x => if String.eqb x m0 then Some r else out x)
                     (fun x => if String.eqb x m0 then Some r else out' x)) as (E1 & E2).
        split; [exact E1|]. intros m Hm. apply E2.
        destruct (String.eqb_spec m m0); [right; reflexivity|].
        destruct Hm as [[[Hm|Hm] Hok]|Hm]; [congruence|left; auto|right; exact Hm].
      + split; [reflexivity|]. intros m [[_ H]|H]; [discriminate|exact H].
  Qed.

  Theorem fresh_while_quiet p heap h modes comps : Forall (quiet p) h ->
    let s := run (new_ups p heap) h in
    let s' := new_ups (us_par s) (us_heap s) in
    snd (results s modes comps) = snd (results s' modes comps) /\
    (snd (results s modes comps) = Ok tt -> forall m, In m modes ->
       us_out (fst (results s modes comps)) m = us_out (fst (results s' modes comps)) m).
  Proof.
    intros Q s s'. 
    assert (V : ok_state s) by (apply (run_quiet p); [apply same_refl|apply new_ok|exact Q]).
    destruct (results_pure s modes comps V) as (_ & _ & _ & E).
    destruct (results_pure s' modes comps (new_ok _ _)) as (_ & _ & _ & E').
    change (us_par s') with (us_par s) in E'. change (us_heap s') with (us_heap s) in E'.
    destruct (pure_loop_out (us_par s) (us_heap s) modes comps (us_out s) (us_out s')) as (H1 & H2).
    rewrite <- E, <- E' in H1, H2. simpl in H1, H2. split; [exact H1|].
    intros Hok m Hm. apply H2. left. auto.
  Qed.

  (** ** Once filled, the cells decide *)
  Definition full c : Prop := c_frac1 c <> None /\ c_power1 c <> None /\ c_power2 c <> None.

  Lemma one_component_full p p' heap mode comp c : same_target p p' -> full c ->
    fst (one_component p heap mode comp c) = c /\
    one_component p' heap mode comp c = one_component p heap mode comp c.
  Proof.
    intros (E1 & E2 & E3 & E4 & E5) (F1 & F2 & F3). unfold one_component, read_power1, read_power2, read_frac1.
    destruct (c_power1 c) as [x|]; [|congruence]. destruct (c_power2 c) as [o|]; [|congruence].
    destruct (c_frac1 c) as [f|]; [|congruence].
    assert (Ee : forall o q, extrapolate p' o q = extrapolate p o q).
    { intros. unfold extrapolate. rewrite E2, E4, E5. reflexivity. }
    rewrite E1. split.
    - destruct (bind (o_spec A (deref heap x) mode) (component comp)); [|reflexivity].
      match goal with |- context [match ?u with Ok _ => _ | Err _ => _ end] => destruct u end; [|reflexivity].
      destruct (String.eqb mode "mm"); reflexivity.
    - destruct (bind (o_spec A (deref heap x) mode) (component comp)); [|reflexivity].
      destruct o as [o|]; cbn [bind]; [|rewrite Ee; reflexivity].
      destruct (bind (o_spec A o mode) (component comp)); cbn [bind]; [|reflexivity]. rewrite !Ee. reflexivity.
  Qed.

  Lemma components_full p p' heap mode comps : same_target p p' -> forall c acc, full c ->
    fst (components p heap mode comps c acc) = c /\
    components p' heap mode comps c acc = components p heap mode comps c acc.
  Proof.
    intros T. induction comps as [|x rest IH]; intros c acc F; simpl; [auto|].
    destruct (one_component_full p p' heap mode x c T F) as (E1 & E2). rewrite E2.
    destruct (one_component p heap mode x c) as [c1 v]. simpl in E1. subst c1.
    destruct v; [apply IH; exact F|auto].
  Qed.

  Lemma loop_full p p' heap modes comps : same_target p p' -> forall c out, full c ->
    fst (fst (results_loop p heap modes comps c out)) = c /\
    results_loop p' heap modes comps c out = results_loop p heap modes comps c out.
  Proof.
    intros T. induction modes as [|m rest IH]; intros c out F; simpl; [auto|].
    destruct (components_full p p' heap m comps T c nothing F) as (E1 & E2). rewrite E2.
    destruct (components p heap m comps c nothing) as [c1 v]. simpl in E1. subst c1.
    destruct v; [apply IH; exact F|auto].
  Qed.

  (** Two states that differ at most in the parameters other than the output grid. *)
  Definition twins s s' : Prop :=
    same_target (us_par s) (us_par s') /\ us_heap s' = us_heap s /\ cells_of s' = cells_of s /\
    us_out s' = us_out s /\ full (cells_of s).

  Lemma twins_step s s' e : twins s s' -> no_update e -> twins (step s e) (step s' e).
  Proof.
    intros (T & H & C & O & F) N. destruct e as [p'|modes comps|r o]; [destruct N| |].
    - simpl. unfold results. rewrite H, C, O.
      destruct (loop_full (us_par s) (us_par s') (us_heap s) modes comps T (cells_of s) (us_out s) F) as (E1 & E2).
      rewrite E2. destruct (results_loop (us_par s) (us_heap s) modes comps (cells_of s) (us_out s)) as [[c out] r].
      simpl in *. subst c. unfold twins, cells_of. simpl. repeat split; auto; try apply T; try apply F.
    - simpl. unfold twins, cells_of in *. simpl. rewrite H, O. repeat split; auto; try apply T; try apply F;
        inversion C; congruence.
  Qed.

  Lemma twins_run h : forall s s', twins s s' -> Forall no_update h -> twins (run s h) (run s' h).
  Proof.
    induction h as [|e rest IH]; intros s s' T N; [exact T|]. inversion N; subst.
    apply (IH (step s e) (step s' e)); [apply twins_step; assumption|assumption].
  Qed.

  (** A successful call that had to mix fills every cell. *)
  Definition grown c c' : Prop :=
    (c_frac1 c <> None -> c_frac1 c' <> None) /\ (c_power1 c <> None -> c_power1 c' <> None) /\
    (c_power2 c <> None -> c_power2 c' <> None).
  Lemma grown_refl c : grown c c. Proof. unfold grown; tauto. Qed.
  Lemma grown_trans c c' c'' : grown c c' -> grown c' c'' -> grown c c''.
  Proof. unfold grown; tauto. Qed.
  Lemma grown_full c c' : grown c c' -> full c -> full c'.
  Proof. unfold grown, full; tauto. Qed.

  Lemma read_power1_grown p c c' r : read_power1 p c = (c', r) ->
    grown c c' /\ ((exists v, r = Ok v) -> c_power1 c' <> None).
  Proof.
    unfold read_power1. destruct (c_power1 c) eqn:E.
    - intros H; inversion H; subst. split; [apply grown_refl|]. intros _. congruence.
    - destruct (power_1_value p); intros H; inversion H; subst.
      + split; [|intros _; simpl; congruence]. unfold grown; simpl. repeat split; auto; congruence.
      + split; [apply grown_refl|]. intros [v Hv]; discriminate.
  Qed.

  Lemma read_power2_grown p heap c c' r : read_power2 p heap c = (c', r) ->
    grown c c' /\ ((exists v, r = Ok v) -> c_power2 c' <> None).
  Proof.
    unfold read_power2. destruct (c_power2 c) eqn:E.
    - intros H; inversion H; subst. split; [apply grown_refl|]. intros _. congruence.
    - destruct (u_m2 p).
      + destruct (read_power1 p c) as [c1 s1] eqn:E1. destruct (read_power1_grown p c c1 s1 E1) as (G1 & _).
        destruct s1 as [x|e].
        * destruct (power_2_value p (deref heap x)); intros H; inversion H; subst.
          -- split; [|intros _; simpl; congruence]. destruct G1 as (G1 & G2 & G3). unfold grown; simpl.
             repeat split; auto; congruence.
          -- split; [exact G1|]. intros [v Hv]; discriminate.
        * intros H; inversion H; subst. split; [exact G1|]. intros [v Hv]; discriminate.
      + intros H; inversion H; subst. split; [|intros _; simpl; congruence]. unfold grown; simpl.
        repeat split; auto; congruence.
  Qed.

  Lemma read_frac1_grown p c c' r : read_frac1 p c = (c', r) ->
    grown c c' /\ ((exists v, r = Ok v) -> c_frac1 c' <> None).
  Proof.
    unfold read_frac1. destruct (c_frac1 c) eqn:E.
    - intros H; inversion H; subst. split; [apply grown_refl|]. intros _. congruence.
    - destruct (frac_1_value p); intros H; inversion H; subst.
      + split; [|intros _; simpl; congruence]. unfold grown; simpl. repeat split; auto; congruence.
      + split; [apply grown_refl|]. intros [v Hv]; discriminate.
  Qed.

  Lemma one_component_grown p heap mode comp c c' r : one_component p heap mode comp c = (c', r) ->
    grown c c' /\ ((exists v, r = Ok v) -> mode <> "mm"%string -> full c').
  Proof.
    unfold one_component. destruct (read_power1 p c) as [c1 s1] eqn:E1.
    destruct (read_power1_grown _ _ _ _ E1) as (G1 & D1).
    destruct s1 as [x|e]; [|intros H; inversion H; subst; split; [exact G1|intros [v Hv]; discriminate]].
    destruct (bind (o_spec A (deref heap x) mode) (component comp)) as [q1|e];
      [|intros H; inversion H; subst; split; [exact G1|intros [v Hv]; discriminate]].
    destruct (read_power2 p heap c1) as [c2 s2] eqn:E2.
    destruct (read_power2_grown _ _ _ _ _ E2) as (G2 & D2).
    match goal with |- context [match ?u with Ok _ => _ | Err _ => _ end] => destruct u as [e2|e] eqn:Eu end;
      [|intros H; inversion H; subst; split; [apply (grown_trans c c1); assumption|intros [v Hv]; discriminate]].
    destruct (String.eqb_spec mode "mm") as [Em|Em].
    - intros H; inversion H; subst. split; [apply (grown_trans c c1); assumption|]. intros _ Hn. congruence.
    - destruct (read_frac1 p c2) as [c3 f] eqn:E3. destruct (read_frac1_grown _ _ _ _ E3) as (G3 & D3).
      intros H; inversion H; subst. split; [apply (grown_trans c c2); [apply (grown_trans c c1)|]; assumption|].
      intros [v Hv] _. destruct s2 as [o2|]; [|discriminate Eu]. destruct f as [f|]; [|discriminate Hv].
      destruct G3 as (G31 & G32 & G33), G2 as (G21 & G22 & G23). unfold full. repeat split.
      + apply D3. eexists; reflexivity.
      + apply G32, G22, D1. eexists; reflexivity.
      + apply G33, D2. eexists; reflexivity.
  Qed.

  Lemma components_grown p heap mode comps : forall c acc c' r, components p heap mode comps c acc = (c', r) ->
    grown c c' /\ ((exists v, r = Ok v) -> mode <> "mm"%string -> comps <> [] -> full c').
  Proof.
    induction comps as [|x rest IH]; intros c acc c' r; simpl.
    - intros H; inversion H; subst. split; [apply grown_refl|congruence].
    - destruct (one_component p heap mode x c) as [c1 v] eqn:E1.
      destruct (one_component_grown _ _ _ _ _ _ _ E1) as (G1 & D1). destruct v as [v|e].
      + intros H. destruct (IH _ _ _ _ H) as (G2 & D2). split; [apply (grown_trans c c1); assumption|].
        intros Hr Hm _. apply (grown_full c1); [exact G2|]. apply D1; [eexists; reflexivity|exact Hm].
      + intros H; inversion H; subst. split; [exact G1|]. intros [w Hw]; discriminate.
  Qed.

  Lemma loop_grown p heap modes comps : forall c out c' out' r,
    results_loop p heap modes comps c out = (c', out', r) ->
    grown c c' /\ (r = Ok tt -> comps <> [] -> (exists m, In m modes /\ m <> "mm"%string) -> full c').
  Proof.
    induction modes as [|m rest IH]; intros c out c' out' r; simpl.
    - intros H; inversion H; subst. split; [apply grown_refl|]. intros _ _ (m & [] & _).
    - destruct (components p heap m comps c nothing) as [c1 v] eqn:E1.
      destruct (components_grown _ _ _ _ _ _ _ _ E1) as (G1 & D1). destruct v as [v|e].
      + intros H. destruct (IH _ _ _ _ _ H) as (G2 & D2). split; [apply (grown_trans c c1); assumption|].
        intros Hr Hc (x & [Hx|Hx] & Hn).
        * subst x. apply (grown_full c1); [exact G2|]. apply D1; auto. eexists; reflexivity.
        * apply D2; auto. exists x; auto.
      + intros H; inversion H; subst. split; [exact G1|discriminate].
  Qed.

  Theorem pinned_after_first_use s0 s modes comps p p' h :
    results s0 modes comps = (s, Ok tt) -> comps <> [] -> (exists m, In m modes /\ m <> "mm"%string) ->
    same_target p p' -> Forall no_update h ->
    us_out (run (step s (EUpdate p')) h) = us_out (run (step s (EUpdate p)) h).
  Proof.
    intros H Hc Hm T N.
    assert (F : full (cells_of s)).
    { unfold results in H.
      destruct (results_loop (us_par s0) (us_heap s0) modes comps (cells_of s0) (us_out s0)) as [[c out] r] eqn:E.
      inversion H; subst. destruct (loop_grown _ _ _ _ _ _ _ _ _ E) as (_ & D).
      destruct c; apply (D eq_refl Hc Hm). }
    assert (W : twins (step s (EUpdate p)) (step s (EUpdate p'))).
    { unfold twins, cells_of in *. simpl. repeat split; auto; try apply T; try apply F. }
    destruct (twins_run h _ _ W N) as (_ & _ & _ & O & _). exact O.
  Qed.

  (** ** What results() stores *)
  Lemma pure_all_has p heap mode comps : forall acc r, pure_all p heap mode comps acc = Ok r ->
    (forall x, In x comps -> In x ["1h"; "2h"; "tot"]%string) /\
    (forall x, stored_component x r <> None <-> In x comps \/ stored_component x acc <> None).
  Proof.
    induction comps as [|y rest IH]; intros acc r; simpl.
    - intros H; inversion H; subst. split; [intros x []|]. intros x; tauto.
    - destruct (pure p heap mode y) as [v|e] eqn:Ev; [|discriminate]. cbn [bind]. intros H.
      destruct (IH _ _ H) as (H1 & H2).
      assert (Hy : In y ["1h"; "2h"; "tot"]%string).
      { unfold pure in Ev. destruct (power_1_value p) as [x|]; [|discriminate]. cbn [bind] in Ev.
        destruct (o_spec A (deref heap x) mode) as [q|]; [|discriminate]. cbn [bind] in Ev.
        unfold component in Ev. destruct (String.eqb_spec y "1h"); [subst; simpl; auto|].
        destruct (String.eqb_spec y "2h"); [subst; simpl; auto|].
        destruct (String.eqb_spec y "tot"); [subst; simpl; auto|]. discriminate. }
      split.
      + intros x [<-|Hx]; [exact Hy|apply H1; exact Hx].
      + intros x. rewrite H2. clear H1 H2 IH.
        assert (E : stored_component x (set_component y v acc) <> None <-> y = x \/ stored_component x acc <> None).
        { simpl in Hy. destruct Hy as [<-|[<-|[<-|[]]]]; unfold stored_component, set_component; simpl;
            destruct (String.eqb_spec x "1h"); subst; simpl;
            [| destruct (String.eqb_spec x "2h"); subst; simpl;
               [|destruct (String.eqb_spec x "tot"); subst; simpl] | 
             | destruct (String.eqb_spec x "2h"); subst; simpl;
               [|destruct (String.eqb_spec x "tot"); subst; simpl] | 
             | destruct (String.eqb_spec x "2h"); subst; simpl;
               [|destruct (String.eqb_spec x "tot"); subst; simpl]];
            intuition congruence. }
        rewrite E. tauto.
  Qed.

  Definition holds comps (o : option stored) : Prop :=
    exists st, o = Some st /\ forall x, stored_component x st <> None <-> In x comps.

  (** [components] stores exactly the names it is given, whatever the cells hold. *)
  Lemma one_component_name p heap mode comp c v : snd (one_component p heap mode comp c) = Ok v ->
    In comp ["1h"; "2h"; "tot"]%string.
  Proof.
    unfold one_component. destruct (read_power1 p c) as [c1 [x|e]]; [|discriminate].
    destruct (o_spec A (deref heap x) mode) as [q|]; [|discriminate]. cbn [bind].
    unfold component. destruct (String.eqb_spec comp "1h"); [subst; simpl; auto|].
    destruct (String.eqb_spec comp "2h"); [subst; simpl; auto|].
    destruct (String.eqb_spec comp "tot"); [subst; simpl; auto|]. discriminate.
  Qed.

  Lemma set_component_has x y v acc : In y ["1h"; "2h"; "tot"]%string ->
    (stored_component x (set_component y v acc) <> None <-> y = x \/ stored_component x acc <> None).
  Proof.
    simpl. intros [<-|[<-|[<-|[]]]]; unfold stored_component, set_component; simpl;
      destruct (String.eqb_spec x "1h"); subst; simpl; try (intuition congruence);
      destruct (String.eqb_spec x "2h"); subst; simpl; try (intuition congruence);
      destruct (String.eqb_spec x "tot"); subst; simpl; intuition congruence.
  Qed.

  Lemma components_has p heap mode comps : forall c acc r, snd (components p heap mode comps c acc) = Ok r ->
    (forall x, In x comps -> In x ["1h"; "2h"; "tot"]%string) /\
    (forall x, stored_component x r <> None <-> In x comps \/ stored_component x acc <> None).
  Proof.
    induction comps as [|y rest IH]; intros c acc r; simpl.
    - intros H; inversion H; subst. split; [intros x []|]. intros x; tauto.
    - destruct (one_component p heap mode y c) as [c1 v] eqn:Ev. destruct v as [v|e]; [|discriminate]. intros H.
      destruct (IH _ _ _ H) as (H1 & H2).
      assert (Hy : In y ["1h"; "2h"; "tot"]%string).
      { apply (one_component_name p heap mode y c v). rewrite Ev. reflexivity. }
      split.
      + intros x [<-|Hx]; [exact Hy|apply H1; exact Hx].
      + intros x. rewrite H2, (set_component_has x y v acc Hy). tauto.
  Qed.

  Lemma none_nothing x : stored_component x nothing = None.
  Proof.
    unfold stored_component. destruct (String.eqb x "1h"); [reflexivity|].
    destruct (String.eqb x "2h"); [reflexivity|]. destruct (String.eqb x "tot"); reflexivity.
  Qed.

  Lemma components_holds p heap mode comps c r : snd (components p heap mode comps c nothing) = Ok r ->
    holds comps (Some r).
  Proof.
    intros H. destruct (components_has _ _ _ _ _ _ _ H) as (_ & E). exists r. split; [reflexivity|].
    intros x. rewrite E, none_nothing. tauto.
  Qed.

  Lemma loop_stores p heap modes comps : forall c out c' out' r,
    results_loop p heap modes comps c out = (c', out', r) ->
    exists done rest, modes = done ++ rest /\ (r = Ok tt <-> rest = []) /\
      (forall m, ~ In m done -> out' m = out m) /\ (forall m, In m done -> holds comps (out' m)).
  Proof.
    induction modes as [|m0 rest IH]; intros c out c' out' r; simpl.
    - intros H; inversion H; subst. exists [], []. repeat split; auto. intros m [].
    - destruct (components p heap m0 comps c nothing) as [c1 v] eqn:E1. destruct v as [v|e].
      + intros H. destruct (IH _ _ _ _ _ H) as (done & rest' & E & Hr & Hout & Hin).
        exists (m0 :: done), rest'. rewrite E. split; [reflexivity|]. split; [exact Hr|]. split.
        * intros m Hm. rewrite Hout by (intro; apply Hm; right; assumption).
          destruct (String.eqb_spec m m0); [exfalso; apply Hm; left; congruence|reflexivity].
        * intros m Hm. destruct (in_dec string_dec m done) as [Hd|Hd]; [apply Hin; exact Hd|].
          destruct Hm as [<-|Hm]; [|contradiction]. rewrite Hout by exact Hd. rewrite String.eqb_refl.
          apply (components_holds p heap m0 comps c). rewrite E1. reflexivity.
      + intros H; inversion H; subst. exists [], (m0 :: rest). repeat split; auto; try discriminate. intros m [].
  Qed.

  Theorem results_stores s modes comps s' r : results s modes comps = (s', r) ->
    exists done rest, modes = done ++ rest /\ (r = Ok tt <-> rest = []) /\
      (forall m, ~ In m done -> us_out s' m = us_out s m) /\
      (forall m, In m done -> exists st, us_out s' m = Some st /\
         forall x, stored_component x st <> None <-> In x comps).
  Proof.
    unfold results.
    destruct (results_loop (us_par s) (us_heap s) modes comps (cells_of s) (us_out s)) as [[c out] r'] eqn:E.
    intros H; inversion H; subst. destruct (loop_stores _ _ _ _ _ _ _ _ _ E) as (d & t & H1 & H2 & H3 & H4).
    exists d, t. split; [exact H1|]. split; [exact H2|]. split; [exact H3|exact H4].
  Qed.

  Lemma results_ok_stores s modes comps : snd (results s modes comps) = Ok tt ->
    forall m, (In m modes -> holds comps (us_out (fst (results s modes comps)) m)) /\
              (~ In m modes -> us_out (fst (results s modes comps)) m = us_out s m).
  Proof.
    intros H m. destruct (results s modes comps) as [s' r] eqn:E. simpl in *.
    destruct (results_stores _ _ _ _ _ E) as (d & t & H1 & H2 & H3 & H4).
    apply H2 in H. subst t. rewrite app_nil_r in H1. subst d. split; [apply H4|apply H3].
  Qed.

  Lemma history_gen mode h : forall s acc, no_errors s h ->
    (match acc with None => us_out s mode = None | Some comps => holds comps (us_out s mode) end) ->
    match fold_left (fun acc e => match e with
                            | EResults modes comps => if in_dec string_dec mode modes then Some comps else acc
                            | _ => acc
                            end) h acc with
    | None => us_out (run s h) mode = None
    | Some comps => holds comps (us_out (run s h) mode)
    end.
  Proof.
    induction h as [|e rest IH]; intros s acc N H; [exact H|].
    destruct N as (Ne & N). simpl fold_left. change (run s (e :: rest)) with (run (step s e) rest).
    apply IH; [exact N|]. destruct e as [p'|modes comps|r o]; [exact H| |exact H].
    destruct (results_ok_stores s modes comps Ne mode) as (H1 & H2). simpl step.
    destruct (in_dec string_dec mode modes) as [Hi|Hi]; [apply H1; exact Hi|].
    rewrite (H2 Hi). exact H.
  Qed.

  Theorem stores_what_was_asked p heap h mode : no_errors (new_ups p heap) h ->
    match last_request mode h with
    | None => us_out (run (new_ups p heap) h) mode = None
    | Some comps => exists st, us_out (run (new_ups p heap) h) mode = Some st /\
                      forall x, stored_component x st <> None <-> In x comps
    end.
  Proof. intros N. apply (history_gen mode h (new_ups p heap) None N). reflexivity. Qed.

  Theorem unknown_component_raises s modes comps x : modes <> [] -> In x comps ->
    ~ In x ["1h"; "2h"; "tot"]%string -> exists e, snd (results s modes comps) = Err e.
  Proof.
    intros Hm Hx Hn. destruct modes as [|m rest]; [congruence|]. unfold results. simpl results_loop.
    destruct (components (us_par s) (us_heap s) m comps (cells_of s) nothing) as [c1 v] eqn:E.
    destruct v as [v|e]; [|exists e; reflexivity]. exfalso.
    destruct (components_has (us_par s) (us_heap s) m comps (cells_of s) nothing v) as (H & _);
      [rewrite E; reflexivity|]. auto.
  Qed.

  (** ** Values *)
  Lemma asked_pure p heap mode comp : answer p heap mode comp = pure p heap mode comp.
  Proof.
    unfold answer, asked. 
    destruct (results_pure (new_ups p heap) [mode] [comp] (new_ok p heap)) as (_ & _ & _ & E).
    destruct (results (new_ups p heap) [mode] [comp]) as [s' r]. simpl in E.
    destruct (pure p heap mode comp) as [v|e] eqn:Ep; cbn [bind] in E.
    - inversion E as [[Eo Er]]. cbn [bind]. rewrite Eo, String.eqb_refl.
      assert (Hy : In comp ["1h"; "2h"; "tot"]%string).
      { destruct (pure_all_has p heap mode [comp] nothing (set_component comp v nothing)) as (H & _).
        - simpl. rewrite Ep. reflexivity.
        - apply H. left; reflexivity. }
      simpl in Hy. destruct Hy as [<-|[<-|[<-|[]]]]; reflexivity.
    - inversion E; subst. reflexivity.
  Qed.
End AddFacts.
