(** Facts about the legacy beta_nl modules: the state kept between calls. *)
From Coq Require Import ZArith Lia.
From Verif Require Import Base FftModel ChainModel LbModel LbSpec.
Open Scope Z_scope.

Section Chain.
  Variable fresh : list R -> dblock -> res nd_array.
  Variable c : bconfig.
  Hypothesis on : bc_bnl c = true.

  (** Whatever is kept was computed from one of the blocks met so far. *)
  Lemma kept_from (blocks : list dblock) : forall l s, (forall t, bs_table s = Some t -> exists b, In b blocks /\ computes fresh (bc_nk c) b t) ->
    forall t, bs_table (fst (lb_chain fresh c s l)) = Some t -> exists b, In b (blocks ++ map fst l) /\ computes fresh (bc_nk c) b t.
  Proof.
    induction l as [|[b e] l IH] in blocks |- *; intros s H t; cbn [lb_chain fst snd map].
    - rewrite app_nil_r. apply H.
    - intro K. replace (blocks ++ b :: map fst l)%list with ((blocks ++ [b]) ++ map fst l)%list by now rewrite <- app_assoc.
      revert K. apply IH. clear IH t. intro t. unfold lb_call.
      assert (Old : bs_table s = Some t -> exists b0, In b0 (blocks ++ [b]) /\ computes fresh (bc_nk c) b0 t).
      { intro Q. destruct (H t Q) as (b0 & I & C). exists b0. split; [apply in_or_app; now left|exact C]. }
      destruct (lb_wave (bc_nk c) b) as [kv|] eqn:W; cbn [fst]; [|exact Old]. rewrite on.
      destruct (bc_update c =? 0); cbn [fst]; [exact Old|].
      destruct (bs_calls s mod bc_update c =? 0).
      + destruct (fresh kv b) as [t0|] eqn:F; cbn [fst bs_table]; [|exact Old].
        intro Q. injection Q as <-. exists b. split; [apply in_or_app; right; now left|exists kv; auto].
      + destruct (bs_table s) as [t0|] eqn:T; cbn [fst bs_table]; [exact Old|discriminate].
  Qed.
  Lemma written_from (blocks : list dblock) : forall l s, (forall t, bs_table s = Some t -> exists b, In b blocks /\ computes fresh (bc_nk c) b t) ->
    forall i t, nth_error (snd (lb_chain fresh c s l)) i = Some (Some t, Ok tt) ->
    exists b, In b (blocks ++ firstn (S i) (map fst l)) /\ computes fresh (bc_nk c) b t.
  Proof.
    induction l as [|[b e] l IH] in blocks |- *; intros s H i t; [destruct i; discriminate|].
    destruct i as [|i].
    - cbn [lb_chain snd nth_error map firstn fst]. intro Q. assert (Q' : snd (lb_call fresh c s b e) = (Some t, Ok tt)) by congruence. clear Q. revert Q'.
      unfold lb_call. destruct (lb_wave (bc_nk c) b) as [kv|] eqn:W; cbn [snd]; [|discriminate]. rewrite on.
      destruct (bc_update c =? 0); cbn [snd]; [discriminate|].
      destruct (bs_calls s mod bc_update c =? 0).
      + destruct (fresh kv b) as [t0|] eqn:F; cbn [snd]; [|discriminate]. unfold nd_put. destruct e; [discriminate|].
        intro Q. injection Q as <-. exists b. split; [apply in_or_app; right; now left|exists kv; auto].
      + destruct (bs_table s) as [t0|] eqn:T; cbn [snd]; [|discriminate]. unfold nd_put. destruct e; [discriminate|].
        intro Q. injection Q as <-. destruct (H t0 eq_refl) as (b0 & I & C). exists b0. split; [apply in_or_app; now left|exact C].
    - cbn [map fst]. rewrite firstn_cons. replace (blocks ++ b :: firstn (S i) (map fst l))%list with ((blocks ++ [b]) ++ firstn (S i) (map fst l))%list by now rewrite <- app_assoc.
      cbn [lb_chain snd nth_error]. apply IH.
      intros t' K. pose proof (kept_from blocks [(b, e)] s H t') as Kf. cbn [lb_chain fst map] in Kf. exact (Kf K).
  Qed.
  Lemma start_empty blocks : forall t, bs_table lb_start = Some t -> exists b : dblock, In b blocks /\ computes fresh (bc_nk c) b t.
  Proof. discriminate. Qed.

  (** One call, when nothing goes wrong. *)
  Lemma call_due s b t : bc_update c <> 0 -> bs_calls s mod bc_update c = 0 -> computes fresh (bc_nk c) b t ->
    lb_call fresh c s b None = ({| bs_calls := bs_calls s + 1; bs_table := Some t |}, (Some t, Ok tt)).
  Proof.
    intros U D (kv & W & F). unfold lb_call. rewrite W, on. rewrite (proj2 (Z.eqb_neq _ _) U), D. cbn [Z.eqb]. now rewrite F.
  Qed.
  Lemma call_kept s b t kv : bc_update c <> 0 -> bs_calls s mod bc_update c <> 0 -> lb_wave (bc_nk c) b = Ok kv -> bs_table s = Some t ->
    lb_call fresh c s b None = ({| bs_calls := bs_calls s + 1; bs_table := Some t |}, (Some t, Ok tt)).
  Proof.
    intros U D W T. unfold lb_call. rewrite W, on. rewrite (proj2 (Z.eqb_neq _ _) U), (proj2 (Z.eqb_neq _ _) D), T. reflexivity.
  Qed.

  Lemma due_succ u n : 0 < u -> n mod u <> 0 -> n - n mod u = (n - 1) - (n - 1) mod u.
  Proof.
    intros U N. pose proof (Z.mod_pos_bound n u U). assert (E : (n - 1) mod u = n mod u - 1).
    { symmetry. apply (Z.mod_unique_pos _ _ (n / u)); [lia|]. pose proof (Z.div_mod n u). lia. }
    lia.
  Qed.

  (** Every block of the chain gives a table [tab i]; the calls count from [n]. *)
  Lemma schedule : 0 < bc_update c -> forall (tab : Z -> nd_array) l n s, 0 <= n -> bs_calls s = n ->
    (n mod bc_update c <> 0 -> bs_table s = Some (tab (n - n mod bc_update c))) ->
    (forall i b e, nth_error l i = Some (b, e) -> e = None /\ computes fresh (bc_nk c) b (tab (n + Z.of_nat i))) ->
    forall i, (i < List.length l)%nat ->
    nth_error (snd (lb_chain fresh c s l)) i = Some (Some (tab (n + Z.of_nat i - (n + Z.of_nat i) mod bc_update c)), Ok tt).
  Proof.
    intros U tab. induction l as [|[b e] l IH]; intros n s N <- K H i Hi; [cbn in Hi; lia|]. set (n := bs_calls s) in *.
    destruct (H 0%nat b e eq_refl) as [-> C]. cbn [Z.of_nat] in C. rewrite Z.add_0_r in C.
    assert (R : lb_call fresh c s b None = ({| bs_calls := n + 1; bs_table := Some (tab (n - n mod bc_update c)) |}, (Some (tab (n - n mod bc_update c)), Ok tt))).
    { destruct (Z.eq_dec (n mod bc_update c) 0) as [D|D].
      - rewrite D, Z.sub_0_r. apply call_due; [lia|exact D|exact C].
      - destruct C as (kv & W & _). apply (call_kept _ _ _ kv); [lia|exact D|exact W|exact (K D)]. }
    cbn [lb_chain]. rewrite R. cbn [fst snd]. destruct i as [|i].
    - cbn [nth_error Z.of_nat]. now rewrite Z.add_0_r.
    - cbn [nth_error]. replace (n + Z.of_nat (Datatypes.S i)) with (n + 1 + Z.of_nat i) by lia.
      apply IH; [lia|reflexivity| | |cbn in Hi; lia].
      + cbn [bs_table]. intro D. f_equal. f_equal. rewrite (due_succ _ (n + 1) U D). f_equal; [lia|f_equal; lia].
      + intros i0 b0 e0 Hn. replace (n + 1 + Z.of_nat i0) with (n + Z.of_nat (Datatypes.S i0)) by lia. apply (H (Datatypes.S i0)). exact Hn.
  Qed.
End Chain.

(** A call that cannot be served leaves everything as it was. *)
Lemma call_failed fresh c s b e : (exists x, lb_wave (bc_nk c) b = Err x) \/ bc_bnl c = true /\ (bc_update c = 0 \/
    bs_calls s mod bc_update c = 0 /\ exists kv x, lb_wave (bc_nk c) b = Ok kv /\ fresh kv b = Err x) ->
  exists x, lb_call fresh c s b e = (s, (e, Err x)).
Proof.
  unfold lb_call. intros [[x W]|[O H]].
  - rewrite W. eauto.
  - destruct (lb_wave (bc_nk c) b) as [kv|]; [|eauto]. rewrite O.
    destruct (Z.eqb_spec (bc_update c) 0) as [E|E]; [eauto|].
    destruct H as [?|[D (kv' & x & W & F)]]; [easy|]. injection W as <-. rewrite D. cbn [Z.eqb]. rewrite F. eauto.
Qed.
(** A call whose entry is there already: the state moves on, the entry does not. *)
Lemma call_refused fresh c s b e t : bc_bnl c = true -> bc_update c <> 0 -> bs_calls s mod bc_update c = 0 -> computes fresh (bc_nk c) b t ->
  lb_call fresh c s b (Some e) = ({| bs_calls := bs_calls s + 1; bs_table := Some t |}, (Some e, Err "BlockNameAlreadyExists"%string)).
Proof.
  intros O U D (kv & W & F). unfold lb_call. rewrite W, O. rewrite (proj2 (Z.eqb_neq _ _) U), D. cbn [Z.eqb]. now rewrite F.
Qed.
Lemma call_off fresh c s b kv : bc_bnl c = false -> lb_wave (bc_nk c) b = Ok kv -> lb_call fresh c s b None = (s, (Some (NdOne 0), Ok tt)).
Proof. intros O W. unfold lb_call. now rewrite W, O. Qed.

Section History.
  Variable fresh : list R -> dblock -> res nd_array.
  Variable c : bconfig.
  Hypothesis on : bc_bnl c = true.
  Hypothesis period : 0 < bc_update c.
  Definition keeps (h : list dblock) (s : bstate) : Prop :=
    bs_calls s = Z.of_nat (List.length h) /\
    (bs_calls s mod bc_update c <> 0 -> exists b t, bs_table s = Some t /\ nth_error h (Z.to_nat (bs_calls s - bs_calls s mod bc_update c)) = Some b /\ computes fresh (bc_nk c) b t).
  Lemma nth_error_grow {A} (h : list A) x i v : nth_error h i = Some v -> nth_error (h ++ x) i = Some v.
  Proof. intro H. rewrite nth_error_app1; [exact H|]. apply nth_error_Some. congruence. Qed.
  Lemma keeps_step h s b e : keeps h s -> let s' := fst (lb_call fresh c s b e) in
    let h' := (if bs_calls s' =? bs_calls s then h else h ++ [b])%list in
    keeps h' s' /\ forall t, snd (lb_call fresh c s b e) = (Some t, Ok tt) ->
      bs_calls s' <> bs_calls s /\ exists b', nth_error h' (Z.to_nat (bs_calls s - bs_calls s mod bc_update c)) = Some b' /\ computes fresh (bc_nk c) b' t.
  Proof.
    intros [L K]. cbv zeta. unfold lb_call.
    assert (Same : keeps (if bs_calls s =? bs_calls s then h else h ++ [b])%list s) by (rewrite Z.eqb_refl; split; assumption).
    destruct (lb_wave (bc_nk c) b) as [kv|] eqn:W; cbn [fst snd]; [|split; [exact Same|discriminate]]. rewrite on.
    rewrite (proj2 (Z.eqb_neq (bc_update c) 0)) by lia. set (n := bs_calls s) in *.
    assert (Next : forall t, (exists b', nth_error (h ++ [b]) (Z.to_nat (n - n mod bc_update c)) = Some b' /\ computes fresh (bc_nk c) b' t) ->
      keeps (if n + 1 =? n then h else h ++ [b])%list {| bs_calls := n + 1; bs_table := Some t |}).
    { intros t (b' & I & C). rewrite (proj2 (Z.eqb_neq _ _)) by lia. split; cbn [bs_calls bs_table].
      - rewrite app_length. cbn [List.length]. lia.
      - intro D. exists b', t. split; [reflexivity|]. split; [|exact C].
        rewrite (due_succ _ (n + 1) period D). replace (n + 1 - 1) with n by lia. exact I. }
    destruct (Z.eqb_spec (n mod bc_update c) 0) as [D|D].
    - destruct (fresh kv b) as [t|] eqn:F; cbn [fst snd]; [|split; [exact Same|discriminate]].
      assert (I : exists b', nth_error (h ++ [b]) (Z.to_nat (n - n mod bc_update c)) = Some b' /\ computes fresh (bc_nk c) b' t).
      { exists b. split; [|exists kv; auto]. rewrite D, Z.sub_0_r. rewrite nth_error_app2 by lia. replace (Z.to_nat n - List.length h)%nat with 0%nat by lia. reflexivity. }
      split; [exact (Next t I)|]. cbn [bs_calls]. intros t' Q. unfold nd_put in Q. destruct e; [discriminate|]. injection Q as <-.
      split; [lia|]. rewrite (proj2 (Z.eqb_neq _ _)) by lia. exact I.
    - destruct (K D) as (b' & t & T & I & C). rewrite T. cbn [fst snd].
      assert (I' : exists b', nth_error (h ++ [b]) (Z.to_nat (n - n mod bc_update c)) = Some b' /\ computes fresh (bc_nk c) b' t).
      { exists b'. split; [now apply nth_error_grow|exact C]. }
      split; [exact (Next t I')|]. cbn [bs_calls]. intros t' Q. unfold nd_put in Q. destruct e; [discriminate|]. injection Q as <-.
      split; [lia|]. rewrite (proj2 (Z.eqb_neq _ _)) by lia. exact I'.
  Qed.
  Lemma history : forall l h s, keeps h s -> forall i t, nth_error (snd (lb_chain fresh c s l)) i = Some (Some t, Ok tt) ->
    let m := Z.of_nat (List.length (h ++ served fresh c s (firstn i l))) in
    exists b, nth_error (h ++ served fresh c s (firstn (S i) l)) (Z.to_nat (m - m mod bc_update c)) = Some b /\ computes fresh (bc_nk c) b t.
  Proof.
    induction l as [|[b e] l IH]; intros h s K i t H; [destruct i; discriminate|].
    destruct (keeps_step h s b e K) as [K' Wr]. cbv zeta in K', Wr |- *. destruct i as [|i].
    - cbn [lb_chain snd nth_error] in H. assert (H' : snd (lb_call fresh c s b e) = (Some t, Ok tt)) by congruence.
      destruct (Wr t H') as (N & b' & I & C). exists b'. split; [|exact C].
      cbn [firstn served]. rewrite app_nil_r. rewrite (proj2 (Z.eqb_neq _ _) N) in *. cbn [served].
      destruct K as [L _]. rewrite <- L. exact I.
    - cbn [lb_chain snd nth_error] in H. rewrite !firstn_cons. cbn [served].
      specialize (IH _ _ K' i t H). cbv zeta in IH.
      destruct (bs_calls (fst (lb_call fresh c s b e)) =? bs_calls s); [exact IH|].
      rewrite <- !app_assoc in IH. exact IH.
  Qed.
  Lemma keeps_start : keeps [] lb_start.
  Proof. split; [reflexivity|]. intro H. exfalso. apply H. cbn [lb_start bs_calls]. apply Z.mod_0_l. lia. Qed.
End History.
