(** Lemmas about LhModel: sequences of writes. *)
From Coq Require Import ZArith Lia Lra.
From Verif Require Import Base Quad Interp FftModel PipeModel PipeFacts HodModel OptModel ChainModel PredModel MiniModel AupModel LiaModel LhModel.
Open Scope R_scope.

(** What a list of writes leaves, entry by entry. *)
Definition entries (p : lput) : list (string * string * bval) :=
  match p with
  | Plain s n v => [(s, n, v)]
  | Grid s nx x ny y n t => [(s, nx, BArr x); (s, ny, BArr y); (s, n, BTab t)]
  end.
Definition put_entry (b : dblock) (e : string * string * bval) : dblock := bput b (fst (fst e)) (snd (fst e)) (snd e).
Definition put_entries (l : list (string * string * bval)) (b : dblock) : dblock := fold_left put_entry l b.
Lemma bput_eq b s n v : bput b s n v s n = Some v.
Proof. unfold bput. now rewrite !String.eqb_refl. Qed.
Lemma bput_ne b s n v s' n' : ~ (s' = s /\ n' = n) -> bput b s n v s' n' = b s' n'.
Proof. intros H. unfold bput. destruct (String.eqb_spec s s') as [->|]; [|reflexivity]. destruct (String.eqb_spec n n') as [->|]; [exfalso; now apply H|reflexivity]. Qed.
Lemma entries_other l : forall b s n, (forall v, ~ In (s, n, v) l) -> put_entries l b s n = b s n.
Proof.
  induction l as [|[[s0 n0] v0] l IH]; intros b s n H; [reflexivity|]. cbn [put_entries fold_left]. fold (put_entries l (put_entry b (s0, n0, v0))).
  rewrite IH by (intros v I; apply (H v); now right). unfold put_entry. cbn [fst snd]. apply bput_ne. intros [-> ->]. apply (H v0). now left.
Qed.
Lemma entries_value l : forall b s n v, In (s, n, v) l -> (forall v', In (s, n, v') l -> v' = v) -> put_entries l b s n = Some v.
Proof.
  induction l as [|[[s0 n0] v0] l IH]; intros b s n v I U; [contradiction|]. cbn [put_entries fold_left]. fold (put_entries l (put_entry b (s0, n0, v0))).
  destruct (in_dec string_dec n (map (fun e : string * string * bval => snd (fst e)) (filter (fun e => String.eqb (fst (fst e)) s) l))) as [K|K].
  - apply in_map_iff in K. destruct K as ([[s1 n1] v1] & E & F). cbn in E. apply filter_In in F. destruct F as [F G]. cbn in G. apply String.eqb_eq in G. subst n1 s1.
    rewrite (U v1) in F by (now right). apply IH; [exact F|]. intros v' I'. apply U. now right.
  - assert (N : forall w, ~ In (s, n, w) l). { intros w W. apply K. apply in_map_iff. exists (s, n, w). split; [reflexivity|]. apply filter_In. split; [exact W|]. apply String.eqb_refl. }
    rewrite entries_other by exact N. destruct I as [I|I]; [|now destruct (N v)]. injection I as -> -> ->. apply bput_eq.
Qed.
Lemma entries_app l1 l2 b : put_entries (l1 ++ l2) b = put_entries l2 (put_entries l1 b).
Proof. apply fold_left_app. Qed.
Lemma entries_kept l : forall b s n, b s n <> None -> put_entries l b s n <> None.
Proof.
  induction l as [|[[s0 n0] v0] l IH]; intros b s n H; [exact H|]. cbn [put_entries fold_left]. fold (put_entries l (put_entry b (s0, n0, v0))). apply IH.
  unfold put_entry, bput. cbn. destruct (_ && _)%bool; [discriminate|exact H].
Qed.

Section Puts.
  Variable over : bool.
  Lemma do_put_ok p b b' : do_put over p b = (b', Ok tt) -> b' = put_entries (entries p) b.
  Proof.
    destruct p as [s n v|s nx x ny y n t]; cbn.
    - unfold put_new. destruct (b s n); intros H; [discriminate|]. now injection H as <-.
    - destruct (b s n); [destruct over|]; intros H; [| discriminate|]; now injection H as <-.
  Qed.
  Lemma do_put_err p b b' e : do_put over p b = (b', Err e) -> b' = b.
  Proof.
    destruct p as [s n v|s nx x ny y n t]; cbn.
    - unfold put_new. destruct (b s n); intros H; [now injection H|discriminate].
    - destruct (b s n); [destruct over|]; intros H; [discriminate|now injection H|discriminate].
  Qed.
  Lemma do_puts_ok l : forall b b', do_puts over l b = (b', Ok tt) -> b' = put_entries (flat_map entries l) b.
  Proof.
    induction l as [|p l IH]; intros b b' H; [cbn in H; now injection H|]. cbn [do_puts flat_map] in *. rewrite entries_app. unfold then_ in H.
    destruct (do_put over p b) as [b1 [[]|e]] eqn:E; cbn [snd fst] in H; [|discriminate]. rewrite <- (do_put_ok _ _ _ E). now apply IH.
  Qed.
  Lemma do_puts_frame l : forall b b' r s n, do_puts over l b = (b', r) -> (forall v, ~ In (s, n, v) (flat_map entries l)) -> b' s n = b s n.
  Proof.
    induction l as [|p l IH]; intros b b' r s n H N; [cbn in H; now injection H as <-|]. cbn [do_puts flat_map] in *. unfold then_ in H.
    destruct (do_put over p b) as [b1 [[]|e]] eqn:E; cbn [snd fst] in H.
    - rewrite (IH _ _ _ _ _ H) by (intros v I; apply (N v), in_or_app; now right). rewrite (do_put_ok _ _ _ E). apply entries_other. intros v I. apply (N v), in_or_app. now left.
    - injection H as <- _. now rewrite (do_put_err _ _ _ _ E).
  Qed.
  (** Plain names must be new, tables too unless they are replaced. *)
  Definition fresh_for (b : dblock) (p : lput) : Prop := match p with Plain s n _ => b s n = None | Grid s _ _ _ _ n _ => b s n = None \/ over = true end.
  Lemma do_put_runs p b : fresh_for b p -> exists b', do_put over p b = (b', Ok tt).
  Proof.
    destruct p as [s n v|s nx x ny y n t]; cbn.
    - unfold put_new. intros ->. now eexists.
    - intros [->|E]; [now eexists|]. destruct (b s n); [rewrite E|]; now eexists.
  Qed.
  Lemma do_put_needs p b b' : do_put over p b = (b', Ok tt) -> fresh_for b p.
  Proof.
    destruct p as [s n v|s nx x ny y n t]; cbn.
    - unfold put_new. destruct (b s n); [discriminate|reflexivity].
    - destruct (b s n); [|now left]. destruct over; [now right|discriminate].
  Qed.
  (** The names that must be new. *)
  Definition main_name (p : lput) : string * string := match p with Plain s n _ => (s, n) | Grid s _ _ _ _ n _ => (s, n) end.
  Definition axes (p : lput) : list (string * string) := match p with Plain _ _ _ => [] | Grid s nx _ ny _ _ _ => [(s, nx); (s, ny)] end.
  Lemma entries_names p s n v : In (s, n, v) (entries p) -> (s, n) = main_name p \/ In (s, n) (axes p).
  Proof. destruct p; cbn; intuition congruence. Qed.
  Lemma do_puts_runs l : forall b, NoDup (map main_name l) -> (forall p q, In p l -> In q l -> ~ In (main_name p) (axes q)) ->
    (forall p, In p l -> b (fst (main_name p)) (snd (main_name p)) = None) -> exists b', do_puts over l b = (b', Ok tt).
  Proof.
    induction l as [|p l IH]; intros b D A F; [now eexists|]. cbn [do_puts]. destruct (do_put_runs p b) as (b1 & E).
    { specialize (F p (or_introl eq_refl)). destruct p; cbn in *; [exact F|now left]. }
    rewrite E. unfold then_. cbn [snd fst]. apply IH.
    - now inversion D.
    - intros; apply A; now right.
    - intros q Q. rewrite (do_put_ok _ _ _ E), entries_other; [apply F; now right|]. intros v I. destruct (entries_names _ _ _ _ I) as [K|K].
      + inversion D as [|? ? N]; subst. apply N. rewrite (surjective_pairing (main_name p)), <- K. apply in_map_iff. exists q. split; [|exact Q]. now destruct (main_name q), (main_name p).
      + apply (A q p); [now right|now left|]. now destruct (main_name q).
  Qed.
  Lemma read_write_ok v b b' : read_write over v b = (b', Ok tt) -> exists l, v b = Ok l /\ b' = put_entries (flat_map entries l) b.
  Proof. unfold read_write. destruct (v b) as [l|e]; [|discriminate]. intros H. exists l. split; [reflexivity|]. now apply do_puts_ok. Qed.
  Lemma then_ok r k b' : then_ r k = (b', Ok tt) -> snd r = Ok tt /\ k (fst r) = (b', Ok tt).
  Proof. unfold then_. destruct (snd r) as [[]|e]; [now split|discriminate]. Qed.
End Puts.
