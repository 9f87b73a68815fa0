(** C35, C37, C38, C39: UpsampledSpectra.  Vocabulary: AddSpec. *)
From Verif Require Import Base Spec Quad QuadFacts Interp InterpFacts BaseFacts HodModel PkModel AddModel AddSpec
  AddFacts AddFacts2 AddFacts3.
Open Scope R_scope.

(** C35 *)
Theorem C35_fresh_while_unchanged : forall (A : api) (p : uparams A) heap h modes comps, Forall (quiet p) h ->
  let s := run (new_ups p heap) h in
  let new := new_ups (us_par s) (us_heap s) in
  snd (results s modes comps) = snd (results new modes comps) /\
  (snd (results s modes comps) = Ok tt -> forall m, In m modes ->
     us_out (fst (results s modes comps)) m = us_out (fst (results new modes comps)) m).
Proof. exact (@fresh_while_quiet). Qed.
Print Assumptions C35_fresh_while_unchanged.

Theorem C35_pinned_after_first_use : forall (A : api) (s0 s : ups A) modes comps p p' h,
  results s0 modes comps = (s, Ok tt) -> comps <> [] -> (exists m, In m modes /\ m <> "mm"%string) ->
  same_target p p' -> Forall no_update h ->
  us_out (run (step s (EUpdate p')) h) = us_out (run (step s (EUpdate p)) h).
Proof. exact (@pinned_after_first_use). Qed.
Print Assumptions C35_pinned_after_first_use.

Theorem C35_update_ignored : forall (A : api) (p p' : uparams A) heap modes comps s mode comp,
  results (new_ups p heap) modes comps = (s, Ok tt) -> comps <> [] -> (exists m, In m modes /\ m <> "mm"%string) ->
  same_target p p' -> asked (step s (EUpdate p')) mode comp = answer p heap mode comp.
Proof. exact (@update_ignored). Qed.
Print Assumptions C35_update_ignored.

Theorem C35_new_length_raises : forall (A : api) (p p' : uparams A) heap modes comps s mode comp,
  results (new_ups p heap) modes comps = (s, Ok tt) -> comps <> [] -> (exists m, In m modes /\ m <> "mm"%string) ->
  u_nz p <> 1%nat -> u_nz p' <> u_nz p -> u_nz p' <> 1%nat -> mode <> "mm"%string ->
  exists e, asked (step s (EUpdate p')) mode comp = Err e.
Proof. exact (@new_length_raises). Qed.
Print Assumptions C35_new_length_raises.

Theorem C35_one_redshift_fraction_sticks : forall (A : api) (p p' : uparams A) heap modes comps s mode comp r1 r2 v1 v2 f,
  results (new_ups p heap) modes comps = (s, Ok tt) -> comps <> [] -> (exists m, In m modes /\ m <> "mm"%string) ->
  u_nz p = 1%nat -> first_is p heap r1 -> second_is p heap r1 r2 -> fraction_is p 0 f ->
  answer (single r1 p') heap mode comp = Ok v1 -> answer (single r2 p') heap mode comp = Ok v2 ->
  exists v, asked (step s (EUpdate p')) mode comp = Ok v /\ r_rows v = u_nz p' /\ forall i, (i < u_nz p')%nat ->
    (mode = "mm"%string -> v = v1) /\
    (mode = "gm"%string \/ mode = "mi"%string -> forall b j,
       r_val v b i j = f * r_val v1 b i j + (1 - f) * r_val v2 b i j) /\
    (mode <> "mm"%string -> mode <> "gm"%string -> mode <> "mi"%string -> forall b j,
       r_val v b i j = f ^ 2 * r_val v1 b i j + (1 - f) ^ 2 * r_val v2 b i j).
Proof. exact (@one_redshift_sticks). Qed.
Print Assumptions C35_one_redshift_fraction_sticks.

Theorem C35_always_current_refuted : exists (p p' : uparams toy) (heap : nat -> obj toy) s v w,
  results (new_ups p heap) ["gg"%string] ["tot"%string] = (s, Ok tt) /\
  asked (step s (EUpdate p')) "gg" "tot" = Ok v /\ answer p' heap "gg" "tot" = Ok w /\
  p' = with_fraction (u_fz p) (Some (2%nat, fun _ => 1)) p /\
  r_val v 0%nat 0%nat 0%nat <> r_val w 0%nat 0%nat 0%nat.
Proof. exact stale_fraction. Qed.
Print Assumptions C35_always_current_refuted.

Example C35_case :
  let p := toy_params (Some (2%nat, fun _ => 1 / 4)) (Some 3) Extrapolate in
  let p' := {| u_nz := u_nz p; u_z := u_z p; u_nk := 1; u_k := fun _ => 7; u_fz := u_fz p; u_f := u_f p;
               u_model := u_model p; u_m1 := u_m1 p; u_m2 := u_m2 p; u_fill := FillValue 0 |} in
  Forall (quiet p) [EResults ["gg"%string] ["tot"%string]; EUpdate p'; ECaller (A:=toy) 1 5].
Proof.
  cbv zeta. constructor; [exact I|]. constructor; [repeat split|]. constructor; [left; discriminate|constructor].
Qed.

(** C37 *)
Theorem C37_mixing : forall (A : api) (p : uparams A) heap r1 r2 mode comp v1 v2 i f,
  first_is p heap r1 -> second_is p heap r1 r2 -> fraction_is p i f -> (i < u_nz p)%nat ->
  answer (single r1 p) heap mode comp = Ok v1 -> answer (single r2 p) heap mode comp = Ok v2 ->
  exists v, answer p heap mode comp = Ok v /\ r_rows v = u_nz p /\
    (mode = "mm"%string -> v = v1) /\
    (mode = "gm"%string \/ mode = "mi"%string -> forall b j,
       r_val v b i j = f * r_val v1 b i j + (1 - f) * r_val v2 b i j) /\
    (mode <> "mm"%string -> mode <> "gm"%string -> mode <> "mi"%string -> forall b j,
       r_val v b i j = f ^ 2 * r_val v1 b i j + (1 - f) ^ 2 * r_val v2 b i j).
Proof. exact (@mixture). Qed.
Print Assumptions C37_mixing.

Lemma mixing_consequences (A : api) (p : uparams A) heap r1 r2 mode comp v1 v2 v i f :
  first_is p heap r1 -> second_is p heap r1 r2 -> fraction_is p i f -> (i < u_nz p)%nat ->
  answer (single r1 p) heap mode comp = Ok v1 -> answer (single r2 p) heap mode comp = Ok v2 ->
  answer p heap mode comp = Ok v -> forall b j,
  (f = 1 -> r_val v b i j = r_val v1 b i j) /\
  (f = 0 -> mode <> "mm"%string -> r_val v b i j = r_val v2 b i j) /\
  (0 <= f <= 1 -> mode = "gm"%string \/ mode = "mi"%string ->
     Rmin (r_val v1 b i j) (r_val v2 b i j) <= r_val v b i j <= Rmax (r_val v1 b i j) (r_val v2 b i j)) /\
  (r_val v1 b i j = r_val v2 b i j ->
     r_val v b i j = r_val v1 b i j * (if in_dec string_dec mode ["mm"; "gm"; "mi"]%string then 1
                                       else f ^ 2 + (1 - f) ^ 2)).
Proof.
  intros H1 H2 H3 H4 H5 H6 H7 b j.
  destruct (mixture p heap r1 r2 mode comp v1 v2 i f H1 H2 H3 H4 H5 H6) as (w & W & _ & M1 & M2 & M3).
  rewrite H7 in W. inversion W; subst w. clear W.
  destruct (string_dec mode "mm") as [Em|Em].
  - rewrite (M1 Em). split; [reflexivity|]. split; [congruence|]. split.
    + intros _ [E|E]; subst; discriminate.
    + intros E. destruct (in_dec string_dec mode ["mm"; "gm"; "mi"]%string) as [Hi|Hi]; [ring|]. exfalso; apply Hi; subst; simpl; auto.
  - destruct (string_dec mode "gm") as [Eg|Eg]; [|destruct (string_dec mode "mi") as [Ei|Ei]].
    + rewrite (M2 (or_introl Eg)). split; [intros ->; ring|]. split; [intros -> _; ring|].
      split; [intros; apply convex; assumption|]. intros E. rewrite <- E.
      destruct (in_dec string_dec mode ["mm"; "gm"; "mi"]%string) as [Hi|Hi]; [ring|]. exfalso; apply Hi; subst; simpl; auto.
    + rewrite (M2 (or_intror Ei)). split; [intros ->; ring|]. split; [intros -> _; ring|].
      split; [intros; apply convex; assumption|]. intros E. rewrite <- E.
      destruct (in_dec string_dec mode ["mm"; "gm"; "mi"]%string) as [Hi|Hi]; [ring|]. exfalso; apply Hi; subst; simpl; auto.
    + rewrite (M3 Em Eg Ei). split; [intros ->; ring|]. split; [intros -> _; ring|].
      split; [intros _ [?|?]; contradiction|]. intros E. rewrite <- E.
      destruct (in_dec string_dec mode ["mm"; "gm"; "mi"]%string) as [Hi|Hi]; [|ring]. exfalso. simpl in Hi. intuition congruence.
Qed.

Theorem C37_limits : forall (A : api) (p : uparams A) heap r1 r2 mode comp v1 v2 v i f,
  first_is p heap r1 -> second_is p heap r1 r2 -> fraction_is p i f -> (i < u_nz p)%nat ->
  answer (single r1 p) heap mode comp = Ok v1 -> answer (single r2 p) heap mode comp = Ok v2 ->
  answer p heap mode comp = Ok v -> forall b j,
  (f = 1 -> r_val v b i j = r_val v1 b i j) /\
  (f = 0 -> mode <> "mm"%string -> r_val v b i j = r_val v2 b i j) /\
  (0 <= f <= 1 -> mode = "gm"%string \/ mode = "mi"%string ->
     Rmin (r_val v1 b i j) (r_val v2 b i j) <= r_val v b i j <= Rmax (r_val v1 b i j) (r_val v2 b i j)) /\
  (r_val v1 b i j = r_val v2 b i j ->
     r_val v b i j = r_val v1 b i j * (if in_dec string_dec mode ["mm"; "gm"; "mi"]%string then 1
                                       else f ^ 2 + (1 - f) ^ 2)).
Proof. exact mixing_consequences. Qed.
Print Assumptions C37_limits.

Theorem C37_one_population : forall (A : api) (p : uparams A) heap r1 mode comp v1 i f,
  first_is p heap r1 -> u_m2 p = None -> fraction_is p i f -> (i < u_nz p)%nat ->
  answer (single r1 p) heap mode comp = Ok v1 ->
  exists v, answer p heap mode comp = Ok v /\ r_rows v = u_nz p /\
    (mode = "mm"%string -> v = v1) /\
    (mode = "gm"%string \/ mode = "mi"%string -> forall b j, r_val v b i j = f * r_val v1 b i j) /\
    (mode <> "mm"%string -> mode <> "gm"%string -> mode <> "mi"%string -> forall b j,
       r_val v b i j = f ^ 2 * r_val v1 b i j).
Proof. exact (@one_population). Qed.
Print Assumptions C37_one_population.

Theorem C37_fractions_are_complementary : forall (A : api) (p : uparams A) f1 i, frac_1_value p = Ok f1 ->
  fst f1 = u_nz p /\ fst (frac_2_value p f1) = u_nz p /\ snd (frac_2_value p f1) i = 1 - snd f1 i.
Proof. exact fractions_complementary. Qed.
Print Assumptions C37_fractions_are_complementary.

Theorem C37_fraction_at_nodes : forall (A : api) (p : uparams A) n x y i k f, u_f p = Some (n, y) -> u_fz p = Some (n, x) ->
  (2 <= n)%nat -> increasing n x -> (k < n)%nat -> u_z p i = x k -> fraction_is p i f -> f = y k.
Proof.
  exact (fun A p n x y i k f Hf Hz Hn Hx Hk Ez HF =>
    ltac:(unfold fraction_is in HF; rewrite Hf, Hz in HF; destruct HF as (x' & E & HF); inversion E; subst x';
          rewrite Ez in HF; rewrite <- HF; exact (interp_node n x y k Hn Hx Hk))).
Qed.
Print Assumptions C37_fraction_at_nodes.

(** Identical populations: gg, ii and gi come out at f^2 + (1-f)^2 of the population's spectrum. *)
Theorem C37_identical_refuted : exists (p : uparams toy) (heap : nat -> obj toy) v v1,
  first_is p heap 0 /\ second_is p heap 0 0 /\ fraction_is p 0 (1 / 2) /\
  answer p heap "gg" "tot" = Ok v /\ answer (single 0 p) heap "gg" "tot" = Ok v1 /\
  0 < r_val v1 0%nat 0%nat 0%nat /\ r_val v 0%nat 0%nat 0%nat = 1 / 2 * r_val v1 0%nat 0%nat 0%nat.
Proof.
  exact (ltac:(
    set (p := toy_params (Some (2%nat, fun _ => 1 / 2)) (Some 1) Extrapolate);
    destruct (toy_single 0 "gg" "tot" ltac:(simpl; auto) ltac:(simpl; auto) (Some (2%nat, fun _ => 1/2)) (Some 1) Extrapolate) as (v1 & V1);
    fold p in V1;
    assert (S2 : second_is p toy_heap 0 0) by (exists 1; split; reflexivity);
    destruct (mixture p toy_heap 0 0 "gg" "tot" v1 v1 0 (1/2) eq_refl S2
      (toy_fraction (fun _ => 1/2) (Some 1) Extrapolate 0 ltac:(lia)) ltac:(simpl; lia) V1 V1) as (v & V & _ & _ & _ & M);
    exists p, toy_heap, v, v1;
    split; [reflexivity|]; split; [exact S2|]; split; [exact (toy_fraction (fun _ => 1/2) (Some 1) Extrapolate 0 ltac:(lia))|];
    split; [exact V|]; split; [exact V1|];
    rewrite (M ltac:(discriminate) ltac:(discriminate) ltac:(discriminate));
    pose proof (toy_tot 0 "gg" _ _ _ v1 ltac:(simpl; auto) V1) as T; rewrite T; simpl; split; lra)).
Qed.
Print Assumptions C37_identical_refuted.

(** The fraction is extrapolated linearly and may leave [0, 1]. *)
Theorem C37_fraction_in_unit_interval_refuted : exists (p : uparams toy) x y, u_fz p = Some (2%nat, x) /\
  u_f p = Some (2%nat, y) /\ (forall k, 0 <= y k <= 1) /\ fraction_is p 0 2.
Proof.
  exact (ltac:(
    exists {| u_nz := 1; u_z := fun _ => 2; u_nk := 2; u_k := fun k => INR k + 1; u_fz := Some (2%nat, INR);
              u_f := Some (2%nat, fun k => match k with O => 0 | _ => 1 end); u_model := Some 0%nat;
              u_m1 := (1 : prm toy); u_m2 := None; u_fill := Extrapolate |}, INR, (fun k => match k with O => 0 | _ => 1 end);
    split; [reflexivity|]; split; [reflexivity|]; split; [intros [|k]; lra|];
    unfold fraction_is; simpl; exists INR; split; [reflexivity|];
    rewrite interp_above; [simpl; field|lia|intros k Hk; rewrite S_INR; lra|simpl; lra])).
Qed.
Print Assumptions C37_fraction_in_unit_interval_refuted.

Example C37_case : let p := toy_params (Some (2%nat, fun _ => 1 / 4)) (Some 3) Extrapolate in
  first_is p toy_heap 0 /\ second_is p toy_heap 0 1 /\ fraction_is p 0 (1 / 4) /\
  (exists v1, answer (single 0 p) toy_heap "gm" "tot" = Ok v1) /\
  (exists v2, answer (single 1 p) toy_heap "gm" "tot" = Ok v2).
Proof.
  split; [apply toy_first|]. split; [apply toy_second|].
  split; [exact (toy_fraction (fun _ => 1/4) (Some 3) Extrapolate 0 ltac:(lia))|].
  split; apply toy_single; simpl; auto.
Qed.

(** C38 *)
Theorem C38_sums_kept : forall (A : api) (p : uparams A) heap r1 r2 mode P1 P2 v1 v2 vt i f,
  first_is p heap r1 -> second_is p heap r1 r2 -> fraction_is p i f -> (i < u_nz p)%nat ->
  good_grid (heap r1) -> good_grid (heap r2) ->
  o_spec A (heap r1) mode = Ok P1 -> o_spec A (heap r2) mode = Ok P2 ->
  sums_up (o_nz A (heap r1)) (o_nk A (heap r1)) (pk_1h P1) (pk_2h P1) (pk_tot P1) ->
  sums_up (o_nz A (heap r2)) (o_nk A (heap r2)) (pk_1h P2) (pk_2h P2) (pk_tot P2) ->
  u_fill p = Extrapolate \/ u_fill p = FillValue 0 \/ u_fill p = FillPair 0 0 ->
  answer p heap mode "1h" = Ok v1 -> answer p heap mode "2h" = Ok v2 -> answer p heap mode "tot" = Ok vt ->
  forall b j, r_val vt b i j = r_val v1 b i j + r_val v2 b i j.
Proof. exact (@sums_kept_mix). Qed.
Print Assumptions C38_sums_kept.

Theorem C38_sums_kept_single : forall (A : api) (p : uparams A) heap r mode v1 v2 vt P, good_grid (heap r) ->
  o_spec A (heap r) mode = Ok P -> sums_up (o_nz A (heap r)) (o_nk A (heap r)) (pk_1h P) (pk_2h P) (pk_tot P) ->
  answer (single r p) heap mode "1h" = Ok v1 -> answer (single r p) heap mode "2h" = Ok v2 ->
  answer (single r p) heap mode "tot" = Ok vt ->
  forall b i j, (i < u_nz p)%nat ->
  u_fill p = Extrapolate \/ u_fill p = FillValue 0 \/ u_fill p = FillPair 0 0 \/
    o_z A (heap r) 0%nat <= u_z p i <= o_z A (heap r) (o_nz A (heap r) - 1)%nat ->
  r_val vt b i j = r_val v1 b i j + r_val v2 b i j.
Proof. exact (@sums_kept). Qed.
Print Assumptions C38_sums_kept_single.

Theorem C38_own_grid : forall (A : api) (p : uparams A) heap r mode comp v b i j i' j', good_grid (heap r) ->
  (i < u_nz p)%nat -> (i' < o_nz A (heap r))%nat -> (j' < o_nk A (heap r))%nat ->
  u_z p i = o_z A (heap r) i' -> u_k p j = o_k A (heap r) j' ->
  answer (single r p) heap mode comp = Ok v ->
  exists q, bind (o_spec A (heap r) mode) (component comp) = Ok q /\ r_val v b i j = q b i' j'.
Proof. exact (@own_grid). Qed.
Print Assumptions C38_own_grid.

Theorem C38_exact_when_bilinear : forall (A : api) (p : uparams A) heap r mode comp v b i j q c0 cz ck czk,
  good_grid (heap r) -> (i < u_nz p)%nat ->
  u_fill p = Extrapolate \/ o_z A (heap r) 0%nat <= u_z p i <= o_z A (heap r) (o_nz A (heap r) - 1)%nat ->
  answer (single r p) heap mode comp = Ok v ->
  bind (o_spec A (heap r) mode) (component comp) = Ok q ->
  (forall z k, (z < o_nz A (heap r))%nat -> (k < o_nk A (heap r))%nat ->
     q b z k = c0 + cz * o_z A (heap r) z + ck * log10 (o_k A (heap r) k)
               + czk * o_z A (heap r) z * log10 (o_k A (heap r) k)) ->
  r_val v b i j = c0 + cz * u_z p i + ck * log10 (u_k p j) + czk * u_z p i * log10 (u_k p j).
Proof. exact (@regrid_exact). Qed.
Print Assumptions C38_exact_when_bilinear.

(** A non-zero fill value is assigned to each component, so outside the model's redshift range they do not add up. *)
Theorem C38_any_fill_refuted : exists (p : uparams toy) (heap : nat -> obj toy) v1 v2 vt P, good_grid (heap 0%nat) /\
  o_spec toy (heap 0%nat) "gg" = Ok P /\
  sums_up (o_nz toy (heap 0%nat)) (o_nk toy (heap 0%nat)) (pk_1h P) (pk_2h P) (pk_tot P) /\
  u_fill p = FillValue 1 /\
  answer (single 0 p) heap "gg" "1h" = Ok v1 /\ answer (single 0 p) heap "gg" "2h" = Ok v2 /\
  answer (single 0 p) heap "gg" "tot" = Ok vt /\
  r_val vt 0%nat 0%nat 0%nat <> r_val v1 0%nat 0%nat 0%nat + r_val v2 0%nat 0%nat 0%nat.
Proof. exact sums_broken. Qed.
Print Assumptions C38_any_fill_refuted.

Example C38_case : let p := toy_params (Some (2%nat, fun _ => 1 / 4)) (Some 3) (FillValue 0) in
  good_grid (toy_heap 0) /\ good_grid (toy_heap 1) /\
  o_spec toy (toy_heap 0) "gg" = Ok (toy_psr 1) /\ o_spec toy (toy_heap 1) "gg" = Ok (toy_psr 3) /\
  sums_up 2 2 (pk_1h (toy_psr 1)) (pk_2h (toy_psr 1)) (pk_tot (toy_psr 1)) /\
  sums_up 2 2 (pk_1h (toy_psr 3)) (pk_2h (toy_psr 3)) (pk_tot (toy_psr 3)) /\
  exists v, answer p toy_heap "gg" "tot" = Ok v.
Proof.
  split; [apply toy_good|]. split; [apply toy_good|]. split; [apply toy_spec; simpl; auto|].
  split; [apply toy_spec; simpl; auto|]. split; [intros b z k _ _; reflexivity|].
  split; [intros b z k _ _; reflexivity|].
  destruct (toy_mix "gg" (1/4) (FillValue 0)) as (v & V & _); [simpl; auto|discriminate..|]. exists v. exact V.
Qed.

(** C39 *)
Theorem C39_stores_what_was_asked : forall (A : api) (p : uparams A) heap h mode, no_errors (new_ups p heap) h ->
  match last_request mode h with
  | None => us_out (run (new_ups p heap) h) mode = None
  | Some comps => exists st, us_out (run (new_ups p heap) h) mode = Some st /\
                    forall x, stored_component x st <> None <-> In x comps
  end.
Proof. exact (@stores_what_was_asked). Qed.
Print Assumptions C39_stores_what_was_asked.

Theorem C39_one_call : forall (A : api) (s : ups A) modes comps s' r, results s modes comps = (s', r) ->
  exists done rest, modes = done ++ rest /\ (r = Ok tt <-> rest = []) /\
    (forall m, ~ In m done -> us_out s' m = us_out s m) /\
    (forall m, In m done -> exists st, us_out s' m = Some st /\
       forall x, stored_component x st <> None <-> In x comps).
Proof. exact (@results_stores). Qed.
Print Assumptions C39_one_call.

Theorem C39_unknown_component_raises : forall (A : api) (s : ups A) modes comps x, modes <> [] -> In x comps ->
  ~ In x ["1h"; "2h"; "tot"]%string -> exists e, snd (results s modes comps) = Err e.
Proof. exact (@unknown_component_raises). Qed.
Print Assumptions C39_unknown_component_raises.

Example C39_case : let p := toy_params None None Extrapolate in
  let h := [EResults (A:=toy) ["gg"; "mm"]%string ["tot"; "1h"]%string; EResults ["mm"]%string ["2h"]%string] in
  no_errors (new_ups p toy_heap) h /\
  last_request "mm" h = Some ["2h"]%string /\ last_request "gg" h = Some ["tot"; "1h"]%string /\
  last_request "gi" h = None.
Proof.
  assert (E : forall s : ups toy, us_par s = toy_params None None Extrapolate -> us_heap s = toy_heap -> ok_state s ->
    forall modes comps, Forall (fun m => In m toy_modes) modes ->
    Forall (fun c => In c ["1h"; "2h"; "tot"]%string) comps -> snd (results s modes comps) = Ok tt).
  { intros s Ep Eh V modes comps Hm Hc.
    destruct (results_pure s modes comps V) as (_ & _ & _ & E).
    assert (E' : snd (pure_loop (us_par s) (us_heap s) modes comps (us_out s)) = Ok tt); [|rewrite <- E in E'; exact E'].
    rewrite Ep, Eh. clear E V Ep Eh. generalize (us_out s). induction Hm as [|m rest Hm _ IH]; intros out; [reflexivity|]. simpl.
    assert (K : forall acc, exists r, pure_all (toy_params None None Extrapolate) toy_heap m comps acc = Ok r).
    { clear IH. induction Hc as [|c cs Hc _ IHc]; intros acc; [eexists; reflexivity|]. cbn [pure_all].
      destruct (toy_single 0 m c Hm Hc None None Extrapolate) as (v & Hv).
      destruct (one_population (toy_params None None Extrapolate) toy_heap 0 m c v 0 1 eq_refl eq_refl eq_refl
        ltac:(simpl; lia) Hv) as (w & Hw & _). rewrite asked_pure in Hw. rewrite Hw. cbn [bind]. apply IHc. }
    destruct (K nothing) as (r & Hr). rewrite Hr. apply IH. }
  cbv zeta. split; [|repeat split]. cbn [no_errors step].
  assert (V : ok_state (new_ups (toy_params None None Extrapolate) toy_heap)) by apply new_ok.
  split; [|split; [|exact I]].
  - apply E; try reflexivity; try exact V; repeat (apply Forall_cons; [simpl; auto 10|]); apply Forall_nil.
  - destruct (results_pure (new_ups (toy_params None None Extrapolate) toy_heap) ["gg"; "mm"]%string ["tot"; "1h"]%string V)
      as (V1 & Ep & Eh & _).
    apply E; [rewrite Ep; reflexivity|rewrite Eh; reflexivity|exact V1|repeat (apply Forall_cons; [simpl; auto 10|]); apply Forall_nil..].
Qed.
