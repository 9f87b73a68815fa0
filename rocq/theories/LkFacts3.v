(** What a run of the legacy module leaves. *)
From Coq Require Import ZArith.
From Verif Require Import Base Spec Quad Interp HodModel PkModel PipeModel OptModel ChainModel PredModel MiniModel IaModel AupModel AupFacts AupFacts3 LiaModel LhModel LhFacts LrModel LkModel LkSpec.
Open Scope R_scope.

Definition psec (p : lput) : string := match p with Plain s _ _ => s | Grid s _ _ _ _ _ _ => s end.
Lemma psec_in l s n v : In (s, n, v) (flat_map entries l) -> exists p, In p l /\ psec p = s.
Proof. intros I. apply in_flat_map in I. destruct I as (p & P & E). exists p. split; [exact P|]. destruct p; cbn in *; intuition congruence. Qed.
Lemma puts_apart over l b b' r s n : do_puts over l b = (b', r) -> (forall p, In p l -> psec p <> s) -> b' s n = b s n.
Proof. intros D N. eapply do_puts_frame; [exact D|]. intros v I. apply psec_in in I. destruct I as (p & P & E). exact (N p P E). Qed.
Lemma puts_app over l1 l2 b : do_puts over (l1 ++ l2)%list b = then_ (do_puts over l1 b) (do_puts over l2).
Proof.
  revert b. induction l1 as [|p l1 IH]; intros b; [reflexivity|]. cbn [app do_puts]. unfold then_ at 1 3. destruct (do_put over p b) as [b1 [[]|e]]; cbn [fst snd]; [apply IH|reflexivity].
Qed.
Lemma str_app_inj (a b d : string) : (a ++ b)%string = (a ++ d)%string -> b = d.
Proof. induction a as [|x a IH]; cbn; [trivial|]. intros E. injection E as E. now apply IH. Qed.
Lemma bases_differ p q s t : In p lk_bases -> In q lk_bases -> (p ++ s)%string = (q ++ t)%string -> p = q /\ s = t.
Proof. cbn. intros P Q. decompose [or] P; decompose [or] Q; subst; try contradiction; cbn; intros E; try discriminate E; injection E as E; now split. Qed.
Lemma bases_matter p s : In p lk_bases -> (p ++ s)%string <> "matter_power_nl"%string /\ (p ++ s)%string <> "matter_power_hm"%string.
Proof. cbn. intros P. decompose [or] P; subst; try contradiction; cbn; split; discriminate. Qed.
Lemma str_assoc (a b d : string) : ((a ++ b) ++ d)%string = (a ++ (b ++ d))%string.
Proof. induction a as [|x a IH]; cbn; [reflexivity|]. now rewrite IH. Qed.
Lemma requested_base c p : In p (requested c) -> In p lk_bases.
Proof. unfold requested. rewrite !in_app_iff. destruct (kc_gg c), (kc_gm c), (kc_II c), (kc_gI c), (kc_mI c); cbn; intuition. Qed.
Lemma bin_end_is c n nb : bin_end c n nb (kc_pop c ++ bin_suffix n nb)%string.
Proof. unfold bin_end, bin_suffix. destruct (Z.eqb_spec n 1) as [-> |N]; [left|right]; (split; [auto|]); [induction (kc_pop c) as [|a s IH]; cbn; [reflexivity|now rewrite IH]|reflexivity]. Qed.
Lemma bin_end_only c n nb sfx : bin_end c n nb sfx -> sfx = (kc_pop c ++ bin_suffix n nb)%string.
Proof.
  pose proof (bin_end_is c n nb) as E. unfold bin_end in *. intros [[N ->]|[N ->]]; destruct E as [[N' E]|[N' E]]; try contradiction; congruence.
Qed.

Section Run.
  Variables (over : bool) (dw : dblock -> list R -> A2 -> res A2) (nd : arrays) (c : kconfig).
  Section Stage.
  Variables (z k mass : list R) (x : lk) (W : option A3) (nl : A2) (n : Z) (nb : nat).
  Notation sfx := (kc_pop c ++ bin_suffix n nb)%string.

  Lemma three_sec s t p : In p (three_puts s z k x t) -> psec p = s.
  Proof. cbn. intuition; subst; reflexivity. Qed.
  Lemma answer_sec on before s t p : In p (fst (answer_puts c on before s z k x W nl t)) -> on = true /\ (In p before \/ psec p = s).
  Proof.
    unfold answer_puts. destruct on; [|contradiction]. destruct (answered c x W nl t); cbn [fst]; [|intuition]. rewrite in_app_iff. intros [I|I]; [intuition|]. apply three_sec in I. intuition.
  Qed.
  Lemma and_then_in p q y : In y (fst (and_then p q)) -> In y (fst p) \/ In y (fst q).
  Proof. unfold and_then. destruct (snd p); cbn [fst]; [now rewrite in_app_iff|intuition]. Qed.
  Lemma and_then_ok p q : snd (and_then p q) = Ok tt -> snd p = Ok tt /\ snd q = Ok tt /\ fst (and_then p q) = (fst p ++ fst q)%list.
  Proof. unfold and_then. destruct (snd p) as [[]|e]; cbn; [auto|discriminate]. Qed.
  Lemma first_sec h p : In p (fst (bin_first c sfx z k x W nl h)) -> exists q, In q (requested c) /\ psec p = (q ++ sfx)%string.
  Proof.
    intros I. unfold bin_first in I. apply and_then_in in I. unfold requested. destruct I as [I|I]; apply answer_sec in I; destruct I as [-> [I|I]];
      [destruct I as [<-|[]]; exists "galaxy_linear_bias"%string|exists "galaxy_power"%string|destruct I as [<-|[]]; exists "galaxy_matter_linear_bias"%string|exists "matter_galaxy_power"%string];
      (split; [rewrite !in_app_iff; cbn; intuition|]); try assumption; reflexivity.
  Qed.
  Lemma second_sec h pe p : In p (fst (bin_second c sfx z k x W nl h pe)) -> exists q, In q (requested c) /\ psec p = (q ++ sfx)%string.
  Proof.
    intros I. unfold bin_second in I. apply and_then_in in I. unfold requested. destruct I as [I|I]; [|apply and_then_in in I; destruct I as [I|I]]; apply answer_sec in I; destruct I as [-> [[]|I]];
      [exists "intrinsic_power"%string|exists "galaxy_intrinsic_power"%string|exists "matter_intrinsic_power"%string]; (split; [rewrite !in_app_iff; cbn; intuition|]); assumption.
  Qed.
  Lemma carry_apart p b b' r s m : carry_out over p b = (b', r) -> (forall q, In q (fst p) -> psec q <> s) -> b' s m = b s m.
  Proof.
    unfold carry_out, then_. destruct (do_puts over (fst p) b) as [b1 [[]|e]] eqn:D; cbn [fst snd]; intros E; injection E as <- _; intros N; eapply puts_apart; eauto.
  Qed.
  Lemma carry_ok p b b' : carry_out over p b = (b', Ok tt) -> do_puts over (fst p) b = (b', Ok tt) /\ snd p = Ok tt.
  Proof.
    unfold carry_out, then_. destruct (do_puts over (fst p) b) as [b1 [[]|e]] eqn:D; cbn [fst snd]; intros E; [|discriminate]. injection E as <- E. now split.
  Qed.
  Lemma bin_apart b b' r s m : lk_bin over c n z k mass x W nl nb b = (b', r) -> (forall q, In q (requested c) -> s <> (q ++ sfx)%string) -> b' s m = b s m.
  Proof.
    unfold lk_bin. intros E N. destruct (bin_read c n nb z k mass x W b) as [h|e]; [|now injection E as <- _]. unfold then_ in E.
    destruct (carry_out over (bin_first c sfx z k x W nl h) b) as [b1 r1] eqn:C1.
    assert (F1 : b1 s m = b s m). { eapply carry_apart; [exact C1|]. intros q I S. apply first_sec in I. destruct I as (y & Y & S'). apply (N y Y). congruence. }
    cbn [fst snd] in E. destruct r1 as [u|e1]; [|injection E as <- _; exact F1]. destruct (lk_effective c b1 z x) as [pe|e2]; [|injection E as <- _; exact F1].
    rewrite <- F1. eapply carry_apart; [exact E|]. intros q I S. apply second_sec in I. destruct I as (y & Y & S'). apply (N y Y). congruence.
  Qed.
  (** The tables of one spectrum of a bin that finished. *)
  Definition left_at (b : dblock) (s : string) (t : three) : Prop :=
    b s "z"%string = Some (BArr z) /\ b s "k_h"%string = Some (BArr k) /\ b s "p_k_1h"%string = Some (BTab (grid2 (x_nz x) (x_nk x) (l_1h t))) /\
    b s "p_k_2h"%string = Some (BTab (grid2 (x_nz x) (x_nk x) (l_2h t))) /\ b s "p_k"%string = Some (BTab (grid2 (x_nz x) (x_nk x) (l_tot t))).
  Lemma three_left s t b b' : do_puts over (three_puts s z k x t) b = (b', Ok tt) -> left_at b' s t.
  Proof.
    intros D. apply do_puts_ok in D. subst b'. repeat split; apply entries_value; cbn; try tauto; intros v I; decompose [or] I; try contradiction; congruence.
  Qed.
  Lemma left_kept s t l b b' r : do_puts over l b = (b', r) -> (forall p, In p l -> psec p <> s) -> left_at b s t -> left_at b' s t.
  Proof. intros D N L. unfold left_at in *. rewrite !(puts_apart _ _ _ _ _ _ _ D N). exact L. Qed.
  Lemma answer_left on before s t b b' : answer_puts c on before s z k x W nl t = (fst (answer_puts c on before s z k x W nl t), Ok tt) -> on = true ->
    do_puts over (fst (answer_puts c on before s z k x W nl t)) b = (b', Ok tt) -> exists t', answered c x W nl t = Ok t' /\ left_at b' s t'.
  Proof.
    intros A ->. unfold answer_puts in *. destruct (answered c x W nl t) as [t'|e]; cbn [fst snd] in *; [|discriminate]. intros D. exists t'. split; [reflexivity|].
    rewrite puts_app in D. apply then_ok in D. destruct D as [_ D]. eapply three_left; exact D.
  Qed.
  Lemma bias_left on s0 nme f s t b b' : (forall p, p = "z" \/ p = "k_h" -> p <> nme)%string -> s0 <> s -> snd (answer_puts c on [grid_put s0 nme z k x f] s z k x W nl t) = Ok tt -> on = true ->
    do_puts over (fst (answer_puts c on [grid_put s0 nme z k x f] s z k x W nl t)) b = (b', Ok tt) ->
    b' s0 "z"%string = Some (BArr z) /\ b' s0 "k_h"%string = Some (BArr k) /\ b' s0 nme = Some (BTab (grid2 (x_nz x) (x_nk x) f)).
  Proof.
    intros NM NS A ->. unfold answer_puts in *. destruct (answered c x W nl t) as [t'|e]; cbn [fst snd] in *; [|discriminate]. intros D. rewrite puts_app in D. apply then_ok in D. destruct D as [D1 D].
    destruct (do_puts over [grid_put s0 nme z k x f] b) as [b1 r1] eqn:E. cbn [fst snd] in *. subst r1.
    rewrite !(puts_apart _ _ _ _ _ _ _ D) by (intros p I; apply three_sec in I; congruence). apply do_puts_ok in E. subst b1.
    pose proof (NM "z"%string (or_introl eq_refl)) as N1. pose proof (NM "k_h"%string (or_intror eq_refl)) as N2.
    repeat split; apply entries_value; cbn; try tauto; intros v I; decompose [or] I; try contradiction; congruence.
  Qed.
  End Stage.
End Run.
