(** Staleness of UpsampledSpectra after update(). *)
From Verif Require Import Base Spec Quad QuadFacts Interp InterpFacts BaseFacts HodModel PkModel AddModel AddSpec AddFacts AddFacts2.
Open Scope R_scope.

Section AddFacts3.
  Context {A : api}.
  Implicit Types (p : uparams A) (heap : nat -> obj A) (s : ups A).

  Lemma twins_results s s' modes comps : twins s s' ->
    us_out (fst (results s' modes comps)) = us_out (fst (results s modes comps)) /\
    snd (results s' modes comps) = snd (results s modes comps).
  Proof.
    intros (T & H & C & O & F). unfold results. rewrite H, C, O.
    destruct (loop_full (us_par s) (us_par s') (us_heap s) modes comps T (cells_of s) (us_out s) F) as (E1 & E2).
    rewrite E2. destruct (results_loop (us_par s) (us_heap s) modes comps (cells_of s) (us_out s)) as [[c out] r].
    split; reflexivity.
  Qed.

  Lemma asked_of s mode comp : asked s mode comp =
    bind (snd (results s [mode] [comp])) (fun _ => match us_out (fst (results s [mode] [comp])) mode with
                     | Some st => match stored_component comp st with Some v => Ok v | None => Err "none" end
                     | None => Err "none"
                     end).
  Proof. unfold asked. destruct (results s [mode] [comp]); reflexivity. Qed.

  Lemma full_after s0 s modes comps :
    results s0 modes comps = (s, Ok tt) -> comps <> [] -> (exists m, In m modes /\ m <> "mm"%string) ->
    full (cells_of s).
  Proof.
    intros H Hc Hm. unfold results in H.
    destruct (results_loop (us_par s0) (us_heap s0) modes comps (cells_of s0) (us_out s0)) as [[c out] r] eqn:E.
    inversion H; subst. destruct (loop_grown _ _ _ _ _ _ _ _ _ E) as (_ & D).
    destruct c; apply (D eq_refl Hc Hm).
  Qed.

  Lemma asked_any s mode comp : ok_state s -> asked s mode comp = pure (us_par s) (us_heap s) mode comp.
  Proof.
    intros V. rewrite <- asked_pure. unfold answer. rewrite !asked_of.
    destruct (results_pure s [mode] [comp] V) as (_ & _ & _ & E).
    destruct (results_pure (new_ups (us_par s) (us_heap s)) [mode] [comp] (new_ok _ _)) as (_ & _ & _ & E').
    cbn [us_par us_heap new_ups] in E'.
    destruct (pure_loop_out (us_par s) (us_heap s) [mode] [comp] (us_out s)
               (us_out (new_ups (us_par s) (us_heap s)))) as (H1 & H2).
    rewrite <- E, <- E' in H1, H2. simpl in H1, H2. rewrite <- H1.
    destruct (snd (results s [mode] [comp])) as [[]|e] eqn:Er; [|reflexivity]. cbn [bind].
    rewrite H2; [reflexivity|]. left. split; [left; reflexivity|reflexivity].
  Qed.

  (** After a first use, update() of anything but the output grid changes no answer. *)
  Theorem update_ignored p p' heap modes comps s mode comp :
    results (new_ups p heap) modes comps = (s, Ok tt) -> comps <> [] -> (exists m, In m modes /\ m <> "mm"%string) ->
    same_target p p' -> asked (step s (EUpdate p')) mode comp = answer p heap mode comp.
  Proof.
    intros H Hc Hm T. pose proof (full_after _ _ _ _ H Hc Hm) as F.
    destruct (results_pure (new_ups p heap) modes comps (new_ok p heap)) as (V & Ep & Eh & _).
    rewrite H in V, Ep, Eh. simpl in V, Ep, Eh.
    assert (W : twins s (step s (EUpdate p'))).
    { unfold twins, cells_of in *. simpl. rewrite Ep. repeat split; auto; try apply T; try apply F. }
    destruct (twins_results s _ [mode] [comp] W) as (E1 & E2).
    rewrite (asked_of (step s (EUpdate p'))), E1, E2, <- asked_of.
    rewrite (asked_any s mode comp V), Ep, Eh, asked_pure. reflexivity.
  Qed.

  Lemma frac_length p n f : frac_1_value p = Ok (n, f) -> n = u_nz p.
  Proof.
    unfold frac_1_value. destruct (u_f p) as [[m y]|].
    - destruct (u_fz p) as [[m' x]|]; [|discriminate]. destruct (Nat.eqb m m'); [|discriminate]. congruence.
    - congruence.
  Qed.

  (** A new number of output redshifts after first use makes every mixed mode raise. *)
  Theorem new_length_raises p p' heap modes comps s mode comp :
    results (new_ups p heap) modes comps = (s, Ok tt) -> comps <> [] -> (exists m, In m modes /\ m <> "mm"%string) ->
    u_nz p <> 1%nat -> u_nz p' <> u_nz p -> u_nz p' <> 1%nat -> mode <> "mm"%string ->
    exists e, asked (step s (EUpdate p')) mode comp = Err e.
  Proof.
    intros H Hc Hm N1 N2 N3 Hmm. destruct (full_after _ _ _ _ H Hc Hm) as (F1 & _ & _).
    destruct (results_pure (new_ups p heap) modes comps (new_ok p heap)) as ((V & _) & Ep & Eh & _).
    rewrite H in V, Ep. simpl in V, Ep, F1. destruct (us_frac1 s) as [[n f]|] eqn:Ef; [|congruence].
    specialize (V _ eq_refl). rewrite Ep in V. apply frac_length in V. subst n.
    rewrite asked_of.
    destruct (snd (results (step s (EUpdate p')) [mode] [comp])) as [[]|e] eqn:Er;
      [exfalso|exists e; reflexivity].
    unfold results in Er. change (us_par (step s (EUpdate p'))) with p' in Er.
    change (us_heap (step s (EUpdate p'))) with (us_heap s) in Er.
    cbn [results_loop components] in Er. unfold one_component in Er.
    destruct (read_power1 p' (cells_of (step s (EUpdate p')))) as [c1 s1] eqn:E1.
    assert (K1 : c_frac1 c1 = Some (u_nz p, f)).
    { revert E1. unfold read_power1. simpl. destruct (us_power1 s).
      - intros E; inversion E; subst. exact Ef.
      - destruct (power_1_value p'); intros E; inversion E; subst; exact Ef. }
    destruct s1 as [x|]; [|discriminate].
    destruct (bind (o_spec A (deref (us_heap s) x) mode) (component comp)); [|discriminate].
    destruct (read_power2 p' (us_heap s) c1) as [c2 s2] eqn:E2.
    assert (K2 : c_frac1 c2 = Some (u_nz p, f)).
    { revert E2. unfold read_power2, read_power1. destruct (c_power2 c1).
      - intros E; inversion E; subst. exact K1.
      - destruct (u_m2 p'); [|intros E; inversion E; subst; exact K1].
        destruct (c_power1 c1) as [y|]; [destruct (power_2_value p' (deref (us_heap s) y));
          intros E; inversion E; subst; exact K1|].
        destruct (power_1_value p') as [y|]; [|intros E; inversion E; subst; exact K1].
        destruct (power_2_value p' (deref (us_heap s) y)); intros E; inversion E; subst; exact K1. }
    match goal with H : context [match bind s2 ?g with Ok _ => _ | Err _ => _ end] |- _ =>
      destruct (bind s2 g) end; [|discriminate].
    destruct (String.eqb_spec mode "mm"); [congruence|].
    unfold read_frac1 in Er. rewrite K2 in Er. cbn [bind] in Er. unfold add_spectra, bcast in Er. cbn [fst] in Er.
    destruct (Nat.eqb_spec (u_nz p) (u_nz p')); [congruence|].
    destruct (Nat.eqb_spec (u_nz p) 1); [congruence|].
    destruct (Nat.eqb_spec (u_nz p') 1); [congruence|]. discriminate.
  Qed.

  Lemma asked_one s mode comp : asked s mode comp = snd (one_component (us_par s) (us_heap s) mode comp (cells_of s)).
  Proof.
    rewrite asked_of. unfold results. cbn [results_loop components].
    pose proof (one_component_name (us_par s) (us_heap s) mode comp (cells_of s)) as Nm.
    destruct (one_component (us_par s) (us_heap s) mode comp (cells_of s)) as [c [v|e]]; [|reflexivity].
    cbn [snd fst bind us_out]. rewrite String.eqb_refl. specialize (Nm v eq_refl).
    simpl in Nm. destruct Nm as [<-|[<-|[<-|[]]]]; reflexivity.
  Qed.

  (** After first use with a single output redshift the fraction there is applied to every
      redshift of a later grid. *)
  Theorem one_redshift_sticks p p' heap modes comps s mode comp r1 r2 v1 v2 f :
    results (new_ups p heap) modes comps = (s, Ok tt) -> comps <> [] -> (exists m, In m modes /\ m <> "mm"%string) ->
    u_nz p = 1%nat -> first_is p heap r1 -> second_is p heap r1 r2 -> fraction_is p 0 f ->
    answer (single r1 p') heap mode comp = Ok v1 -> answer (single r2 p') heap mode comp = Ok v2 ->
    exists v, asked (step s (EUpdate p')) mode comp = Ok v /\ r_rows v = u_nz p' /\ forall i, (i < u_nz p')%nat ->
      (mode = "mm"%string -> v = v1) /\
      (mode = "gm"%string \/ mode = "mi"%string -> forall b j,
         r_val v b i j = f * r_val v1 b i j + (1 - f) * r_val v2 b i j) /\
      (mode <> "mm"%string -> mode <> "gm"%string -> mode <> "mi"%string -> forall b j,
         r_val v b i j = f ^ 2 * r_val v1 b i j + (1 - f) ^ 2 * r_val v2 b i j).
  Proof.
    intros H Hc Hm N H1 (q & Hq & H2) Hf A1 A2.
    destruct (first_deref p heap r1 H1) as (x & Ex & Ed).
    destruct (fraction_value p 0 f Hf) as (g & Eg & Eg0).
    destruct (single_value _ _ _ _ _ _ A1) as (q1 & Q1 & N1 & V1).
    destruct (single_value _ _ _ _ _ _ A2) as (q2 & Q2 & N2 & V2). unfold reading in Q1, Q2.
    destruct (full_after _ _ _ _ H Hc Hm) as (F1 & F2 & F3).
    destruct (results_pure (new_ups p heap) modes comps (new_ok p heap)) as ((W1 & W2 & W3) & Ep & Eh & _).
    rewrite H in W1, W2, W3, Ep, Eh. simpl in W1, W2, W3, Ep, Eh, F1, F2, F3.
    destruct (us_frac1 s) as [fr|] eqn:Ef; [|congruence]. specialize (W1 _ eq_refl). rewrite Ep, Eg in W1. injection W1 as <-.
    destruct (us_power1 s) as [y|] eqn:E1; [|congruence]. specialize (W2 _ eq_refl). rewrite Ep, Ex in W2. injection W2 as <-.
    destruct (us_power2 s) as [o2|] eqn:E2; [|congruence].
    assert (o2 = Some (heap r2)) as ->.
    { specialize (W3 _ eq_refl). rewrite Ep, Hq in W3. destruct W3 as (x' & Ex' & P2). rewrite Ex in Ex'. injection Ex' as <-.
      rewrite Eh, Ed in P2. unfold power_2_value in P2. rewrite Hq, H2 in P2. cbn [bind] in P2. congruence. }
    rewrite asked_one. change (us_par (step s (EUpdate p'))) with p'.
    change (us_heap (step s (EUpdate p'))) with (us_heap s). rewrite Eh.
    assert (Ec : cells_of (step s (EUpdate p')) = {| c_frac1 := Some (u_nz p, g); c_power1 := Some x; c_power2 := Some (Some (heap r2)) |}).
    { unfold cells_of. simpl. rewrite Ef, E1, E2. reflexivity. }
    rewrite Ec. unfold one_component, read_power1, read_power2, read_frac1.
    cbn [c_power1 c_power2 c_frac1]. rewrite Ed, Q1. cbn [bind]. rewrite Q2. cbn [bind].
    destruct (String.eqb_spec mode "mm") as [->|Hmm].
    - destruct (single_mm _ _ _ _ _ A1) as (q1' & Q1' & ->). unfold reading in Q1'. rewrite Q1 in Q1'. inversion Q1'; subst q1'.
      eexists. split; [reflexivity|]. split; [reflexivity|].
      intros i Hi. split; [reflexivity|]. split; [intros [E|E]; discriminate E|congruence].
    - cbn [snd]. unfold add_spectra, bcast. cbn [fst snd]. rewrite N.
      assert (Eb : (if Nat.eqb 1 (u_nz p') then Ok (u_nz p') else if Nat.eqb 1 1 then Ok (u_nz p')
                    else if Nat.eqb (u_nz p') 1 then Ok 1%nat else Err "ValueError") = Ok (u_nz p'))
        by (destruct (Nat.eqb 1 (u_nz p')); reflexivity).
      rewrite Eb. cbn [bind]. eexists. split; [reflexivity|]. split; [reflexivity|]. intros i Hi. split; [congruence|]. cbn [r_val].
      rewrite (bidx_id (u_nz p') i Hi). change (bidx 1 i) with 0%nat. rewrite Eg0. split.
      + intros Hgm b j. rewrite V1, V2 by exact Hi. unfold mix. destruct Hgm as [->| ->]; reflexivity.
      + intros _ Hg Hmi b j. rewrite V1, V2 by exact Hi. unfold mix.
        destruct (String.eqb_spec mode "gm"); [congruence|]. destruct (String.eqb_spec mode "mi"); [congruence|]. reflexivity.
  Qed.
End AddFacts3.

(** ** Values of the toy instance *)
Lemma toy_first f m2 fl : first_is (toy_params f m2 fl) toy_heap 0.
Proof. reflexivity. Qed.
Lemma toy_second f fl : second_is (toy_params f (Some 3) fl) toy_heap 0 1.
Proof. exists 3. split; reflexivity. Qed.

Lemma toy_tot r mode f m2 fl v : In mode toy_modes ->
  answer (single r (toy_params f m2 fl)) toy_heap mode "tot" = Ok v -> r_val v 0%nat 0%nat 0%nat = toy_heap r.
Proof.
  intros Hm H. destruct (own_grid (toy_params f m2 fl) toy_heap r mode "tot" v 0 0 0 0 0 (toy_good _)) as (q & Hq & E);
    try reflexivity; try exact H; try (simpl; lia).
  rewrite (toy_spec _ _ Hm) in Hq. simpl in Hq. inversion Hq as [Eq]. rewrite E, <- Eq. simpl.
  destruct r; simpl; ring.
Qed.

Lemma toy_mix mode y fl : In mode toy_modes -> mode <> "mm"%string -> mode <> "gm"%string -> mode <> "mi"%string ->
  exists v, answer (toy_params (Some (2%nat, fun _ => y)) (Some 3) fl) toy_heap mode "tot" = Ok v /\
    r_val v 0%nat 0%nat 0%nat = y ^ 2 + (1 - y) ^ 2 * 3.
Proof.
  intros Hm H1 H2 H3.
  destruct (toy_single 0 mode "tot" Hm ltac:(simpl; auto) (Some (2%nat, fun _ => y)) (Some 3) fl) as (v1 & V1).
  destruct (toy_single 1 mode "tot" Hm ltac:(simpl; auto) (Some (2%nat, fun _ => y)) (Some 3) fl) as (v2 & V2).
  destruct (mixture _ _ _ _ _ _ _ _ 0 y (toy_first _ _ _) (toy_second _ _)
    (toy_fraction (fun _ => y) (Some 3) fl 0 ltac:(lia)) ltac:(simpl; lia) V1 V2) as (v & V & _ & _ & _ & M).
  exists v. split; [exact V|]. rewrite (M H1 H2 H3).
  rewrite (toy_tot 0 mode _ _ _ _ Hm V1), (toy_tot 1 mode _ _ _ _ Hm V2). simpl. ring.
Qed.

Theorem stale_fraction : exists (p p' : uparams toy) (heap : nat -> obj toy) s v w,
  results (new_ups p heap) ["gg"%string] ["tot"%string] = (s, Ok tt) /\
  asked (step s (EUpdate p')) "gg" "tot" = Ok v /\ answer p' heap "gg" "tot" = Ok w /\
  p' = with_fraction (u_fz p) (Some (2%nat, fun _ => 1)) p /\
  r_val v 0%nat 0%nat 0%nat <> r_val w 0%nat 0%nat 0%nat.
Proof.
  set (p := toy_params (Some (2%nat, fun _ => 1 / 4)) (Some 3) Extrapolate).
  set (p' := toy_params (Some (2%nat, fun _ => 1)) (Some 3) Extrapolate).
  destruct (toy_mix "gg" (1/4) Extrapolate) as (v & V & Ev); [simpl; auto|discriminate..|].
  destruct (toy_mix "gg" 1 Extrapolate) as (w & W & Ew); [simpl; auto|discriminate..|].
  fold p in V. fold p' in W.
  destruct (results (new_ups p toy_heap) ["gg"%string] ["tot"%string]) as [s r] eqn:E.
  assert (r = Ok tt) as ->.
  { pose proof V as V'. unfold answer in V'. rewrite asked_of, E in V'. simpl in V'.
    destruct r as [[]|]; [reflexivity|discriminate]. }
  exists p, p', toy_heap, s, v, w. split; [exact E|]. split.
  - rewrite (update_ignored p p' toy_heap _ _ s _ _ E); [exact V|discriminate| |repeat split].
    exists "gg"%string. split; [left; reflexivity|discriminate].
  - split; [exact W|]. split; [reflexivity|]. rewrite Ev, Ew. lra.
Qed.

Definition toy_far : uparams toy :=
  {| u_nz := 1; u_z := fun _ => 5; u_nk := 2; u_k := fun k => INR k + 1; u_fz := None; u_f := None;
     u_model := Some 0%nat; u_m1 := (1 : prm toy); u_m2 := None; u_fill := FillValue 1 |}.

Lemma toy_far_value comp : In comp ["1h"; "2h"; "tot"]%string ->
  exists v, answer (single 0 toy_far) toy_heap "gg" comp = Ok v /\ r_val v 0%nat 0%nat 0%nat = 1.
Proof.
  intros Hc.
  assert (exists v, answer (single 0 toy_far) toy_heap "gg" comp = Ok v) as (v & Hv).
  { rewrite asked_pure. unfold pure.
    change (power_1_value (single 0 toy_far)) with (Ok (Shared (A:=toy) 0)). cbn [bind deref].
    rewrite (toy_spec _ "gg") by (simpl; auto). cbn [bind].
    simpl in Hc. destruct Hc as [<-|[<-|[<-|[]]]]; eexists; reflexivity. }
  exists v. split; [exact Hv|].
  destruct (single_value _ _ _ _ _ _ Hv) as (q & _ & _ & V). rewrite V by (simpl; lia).
  unfold extrapolate. cbn [u_fill toy_far u_z].
  rewrite (interp1d_ext _ _ _ _ (fun _ => 1)).
  - apply interp_const; [simpl; lia|]. apply good_logk. apply toy_good.
  - simpl; lia.
  - intros k _. apply interp1d_outside. right. simpl. lra.
Qed.

Theorem sums_broken : exists (p : uparams toy) (heap : nat -> obj toy) v1 v2 vt P, good_grid (heap 0%nat) /\
  o_spec toy (heap 0%nat) "gg" = Ok P /\
  sums_up (o_nz toy (heap 0%nat)) (o_nk toy (heap 0%nat)) (pk_1h P) (pk_2h P) (pk_tot P) /\
  u_fill p = FillValue 1 /\
  answer (single 0 p) heap "gg" "1h" = Ok v1 /\ answer (single 0 p) heap "gg" "2h" = Ok v2 /\
  answer (single 0 p) heap "gg" "tot" = Ok vt /\
  r_val vt 0%nat 0%nat 0%nat <> r_val v1 0%nat 0%nat 0%nat + r_val v2 0%nat 0%nat 0%nat.
Proof.
  destruct (toy_far_value "1h") as (v1 & V1 & E1); [simpl; auto|].
  destruct (toy_far_value "2h") as (v2 & V2 & E2); [simpl; auto|].
  destruct (toy_far_value "tot") as (vt & Vt & Et); [simpl; auto|].
  exists toy_far, toy_heap, v1, v2, vt, (toy_psr 1).
  split; [apply toy_good|]. split; [apply toy_spec; simpl; auto|]. split; [intros b z k _ _; reflexivity|].
  split; [reflexivity|]. split; [exact V1|]. split; [exact V2|]. split; [exact Vt|]. rewrite E1, E2, Et. lra.
Qed.

Lemma fractions_complementary (A : api) (p : uparams A) f1 i : frac_1_value p = Ok f1 ->
  fst f1 = u_nz p /\ fst (frac_2_value p f1) = u_nz p /\ snd (frac_2_value p f1) i = 1 - snd f1 i.
Proof.
  unfold frac_1_value, frac_2_value. destruct (u_f p) as [[n f]|].
  - destruct (u_fz p) as [[n' x]|]; [|discriminate]. destruct (Nat.eqb n n'); [|discriminate]. intros H. injection H as <-. auto.
  - intros H. injection H as <-. cbn. repeat split; ring.
Qed.
