(** The likelihood of mini_2pt_like.py: the theory bins and the sum over their blocks. *)
From Coq Require Import ZArith.
From Verif Require Import Base Spec QuadFacts FftModel PipeModel OptModel TpModel TpFacts ChainModel ChainFacts PredSpec MiniModel MiniSpec.
From Coq Require Import List.
Open Scope R_scope.

(** ** Theory bins *)
Definition nz_of (b : dblock) (s : string) : Z := match b s "nbin"%string with Some (BInt k) => k | _ => 0%Z end.
Definition nb_of (b : dblock) (s : string) : nat := Z.to_nat (nz_of b s).
Lemma block_int_ok b s k : block_int b s "nbin" = Ok k -> b s "nbin"%string = Some (BInt k) /\ nz_of b s = k.
Proof. unfold block_int, nz_of. destruct (b s "nbin"%string) as [[]|]; intro H; inversion H; split; reflexivity. Qed.

Lemma nth_skip {A} (l : list A) d : forall n i, nth i (skipn n l) d = nth (n + i) l d.
Proof. induction l as [|x l IH]; intros [|n] i; cbn; try reflexivity; [now destruct i|]. apply IH. Qed.
Lemma nth_first {A} (l : list A) d : forall n i, (i < n)%nat -> nth i (firstn n l) d = nth i l d.
Proof. induction l as [|x l IH]; intros [|n] [|i] H; cbn; try reflexivity; try lia. apply IH. lia. Qed.

Section Run.
  Variable to_mpc : string -> option R.
  Variables (c : mconfig) (b : dblock).
  Notation tb := (theory_bin to_mpc c b).
  Lemma section_bins_ok s : forall js count ts, section_bins to_mpc c b s js count = Ok ts ->
    List.length ts = List.length js /\ forall i, (i < List.length js)%nat -> tb s (nth i js 0%nat) (count + i) = Ok (nth i ts []).
  Proof.
    induction js as [|j js IH]; intros count ts H; cbn [section_bins] in H.
    - inversion H. split; [reflexivity|]. intros i Hi. cbn in Hi. lia.
    - apply bind_ok in H as (t & Ht & H). apply bind_ok in H as (r & Hr & H). inversion H; subst ts. destruct (IH _ _ Hr) as [L V].
      split; [cbn; lia|]. intros [|i] Hi; [now rewrite Nat.add_0_r|]. cbn [nth]. rewrite <- (V i) by (cbn in Hi; lia). f_equal. lia.
  Qed.
  Lemma section_bins_run s : forall js count ts, List.length ts = List.length js ->
    (forall i, (i < List.length js)%nat -> tb s (nth i js 0%nat) (count + i) = Ok (nth i ts [])) -> section_bins to_mpc c b s js count = Ok ts.
  Proof.
    induction js as [|j js IH]; intros count [|t ts] L V; cbn in L; try lia; [reflexivity|]. cbn [section_bins].
    pose proof (V 0%nat ltac:(cbn; lia)) as V0. rewrite Nat.add_0_r in V0. cbn [nth] in V0. rewrite V0. cbn [bind].
    rewrite (IH (S count) ts); [reflexivity|lia|]. intros i Hi. specialize (V (S i) ltac:(cbn; lia)). cbn [nth] in V.
    rewrite <- V. f_equal. lia.
  Qed.
  Lemma all_bins_ok : forall secs count ts, all_bins to_mpc c b secs count = Ok ts ->
    (forall s, In s secs -> b s "nbin"%string = Some (BInt (nz_of b s))) /\
    List.length ts = List.length (bin_list (nb_of b) secs) /\
    forall k, (k < List.length ts)%nat -> let p := nth k (bin_list (nb_of b) secs) (""%string, 0%nat) in
      tb (fst p) (snd p - 1) (count + k) = Ok (nth k ts []).
  Proof.
    induction secs as [|s secs IH]; intros count ts H; cbn [all_bins] in H.
    - inversion H. split; [intros s []|]. split; [reflexivity|]. intros k Hk. cbn in Hk. lia.
    - apply bind_ok in H as (n & Hn & H). apply bind_ok in H as (t & Ht & H). apply bind_ok in H as (r & Hr & H). inversion H; subst ts.
      apply block_int_ok in Hn as [Hb Hn]. destruct (section_bins_ok _ _ _ _ Ht) as [L V]. rewrite seq_length in L, V.
      destruct (IH _ _ Hr) as (A & B & D). split; [intros s' [<-|I]; [congruence|now apply A]|].
      assert (LN : nb_of b s = Z.to_nat n) by (unfold nb_of; congruence).
      unfold bin_list. cbn [flat_map]. fold (bin_list (nb_of b) secs). rewrite !app_length, map_length, seq_length. split; [lia|].
      intros k Hk. destruct (Nat.lt_ge_cases k (List.length t)) as [E|E].
      + rewrite !app_nth1 by (rewrite ?map_length, ?seq_length; lia). rewrite (nth_indep _ _ (s, 0%nat)) by (rewrite map_length, seq_length; lia).
        rewrite map_nth. cbn [fst snd]. rewrite seq_nth by lia. rewrite <- V by lia. rewrite seq_nth by lia. f_equal. lia.
      + rewrite !app_nth2 by (rewrite ?map_length, ?seq_length; lia). rewrite map_length, seq_length. rewrite LN, <- L.
        specialize (D (k - List.length t)%nat ltac:(lia)). cbn zeta in D. rewrite <- D. f_equal. lia.
  Qed.
  Lemma all_bins_run : forall secs count ts, (forall s, In s secs -> b s "nbin"%string = Some (BInt (nz_of b s))) ->
    List.length ts = List.length (bin_list (nb_of b) secs) ->
    (forall k, (k < List.length ts)%nat -> let p := nth k (bin_list (nb_of b) secs) (""%string, 0%nat) in
      tb (fst p) (snd p - 1) (count + k) = Ok (nth k ts [])) ->
    all_bins to_mpc c b secs count = Ok ts.
  Proof.
    induction secs as [|s secs IH]; intros count ts A L V.
    - destruct ts; [reflexivity|cbn in L; lia].
    - cbn [all_bins]. unfold block_int. rewrite (A s (or_introl eq_refl)). cbn [bind]. fold (nb_of b s).
      unfold bin_list in L, V. cbn [flat_map] in L, V. fold (bin_list (nb_of b) secs) in L, V. rewrite app_length, map_length, seq_length in L.
      rewrite (section_bins_run s _ count (firstn (nb_of b s) ts)).
      + cbn [bind]. rewrite firstn_length_le by lia. rewrite (IH _ (skipn (nb_of b s) ts)).
        * cbn [bind]. now rewrite firstn_skipn.
        * intros s' I. apply A. now right.
        * rewrite skipn_length. lia.
        * intros k Hk p. rewrite skipn_length in Hk. specialize (V (nb_of b s + k)%nat ltac:(lia)). cbn zeta in V.
          rewrite app_nth2 in V by (rewrite map_length, seq_length; lia). rewrite map_length, seq_length in V.
          replace (nb_of b s + k - nb_of b s)%nat with k in V by lia. subst p. rewrite nth_skip. rewrite <- V. f_equal. lia.
      + rewrite firstn_length_le, seq_length; lia.
      + rewrite seq_length. intros i Hi. specialize (V i ltac:(lia)). cbn zeta in V. rewrite app_nth1 in V by (rewrite map_length, seq_length; lia).
        rewrite (nth_indep _ _ (s, 0%nat)) in V by (rewrite map_length, seq_length; lia). rewrite map_nth in V. cbn [fst snd] in V. rewrite seq_nth in V by lia.
        rewrite seq_nth by lia. rewrite nth_first by lia. rewrite <- V. f_equal. lia.
  Qed.
End Run.

Lemma count_bins_ok b : forall secs n, count_bins b secs = Ok n -> n = fold_right Z.add 0%Z (map (nz_of b) secs) /\
  forall s, In s secs -> b s "nbin"%string = Some (BInt (nz_of b s)).
Proof.
  induction secs as [|s secs IH]; intros n H; cbn [count_bins] in H.
  - inversion H. split; [reflexivity|intros s []].
  - apply bind_ok in H as (k & Hk & H). apply bind_ok in H as (m & Hm & H). inversion H; subst n. apply block_int_ok in Hk as [B E].
    destruct (IH m Hm) as [F G]. split; [cbn; congruence|]. intros s' [<-|I]; [congruence|now apply G].
Qed.
Lemma count_bins_run b : forall secs, (forall s, In s secs -> b s "nbin"%string = Some (BInt (nz_of b s))) ->
  count_bins b secs = Ok (fold_right Z.add 0%Z (map (nz_of b) secs)).
Proof.
  induction secs as [|s secs IH]; intro H; [reflexivity|]. cbn [count_bins map fold_right]. unfold block_int. rewrite (H s (or_introl eq_refl)). cbn [bind].
  rewrite IH by (intros s' I; apply H; now right). reflexivity.
Qed.
Lemma bin_list_length nb secs : List.length (bin_list nb secs) = fold_right Nat.add 0%nat (map nb secs).
Proof. induction secs as [|s secs IH]; [reflexivity|]. unfold bin_list in *. cbn [flat_map map fold_right]. rewrite app_length, map_length, seq_length. lia. Qed.
(** More bins than the sum of counts only if a count is negative. *)
Lemma counts_nonneg b : forall secs, (Z.of_nat (List.length (bin_list (nb_of b) secs)) <= fold_right Z.add 0 (map (nz_of b) secs))%Z ->
  forall s, In s secs -> nz_of b s = Z.of_nat (nb_of b s).
Proof.
  assert (G : forall secs, (fold_right Z.add 0 (map (nz_of b) secs) <= Z.of_nat (List.length (bin_list (nb_of b) secs)))%Z).
  { induction secs as [|s secs IH]; rewrite bin_list_length in *; cbn [map fold_right]; [lia|]. unfold nb_of at 1. lia. }
  induction secs as [|t secs IH]; intros H s I; [destruct I|]. pose proof (G secs) as G'. rewrite bin_list_length in H, G', IH. cbn [map fold_right] in H.
  unfold nb_of at 1 in H. destruct I as [<-|I]; [unfold nb_of; lia|]. apply IH; [lia|exact I].
Qed.
Lemma sum_bin_list b nb secs : bin_counts b secs nb -> fold_right Z.add 0%Z (map (nz_of b) secs) = Z.of_nat (List.length (bin_list nb secs)).
Proof.
  intro H. rewrite bin_list_length. induction secs as [|s secs IH]; [reflexivity|]. cbn [map fold_right]. rewrite IH by (intros s' I; apply H; now right).
  unfold nz_of. rewrite (H s (or_introl eq_refl)). lia.
Qed.
Lemma bin_list_ext nb nb' secs : (forall s, In s secs -> nb s = nb' s) -> bin_list nb secs = bin_list nb' secs.
Proof.
  intro H. unfold bin_list. induction secs as [|s secs IH]; [reflexivity|]. cbn [flat_map]. rewrite H by now left. f_equal. apply IH. intros s' I. apply H. now right.
Qed.
Lemma counts_nb b secs nb : bin_counts b secs nb -> forall s, In s secs -> nb_of b s = nb s.
Proof. intros H s I. unfold nb_of, nz_of. rewrite (H s I). lia. Qed.

(** All the theory of a run, bin by bin. *)
Lemma theory_inv to_mpc c b ts : theory_bins to_mpc c b = Ok ts -> exists nb, bin_counts b (m_sections c) nb /\
  List.length ts = List.length (bin_list nb (m_sections c)) /\ List.length (m_x c) = List.length ts /\
  forall k, (k < List.length ts)%nat -> let p := nth k (bin_list nb (m_sections c)) (""%string, 0%nat) in
    theory_bin to_mpc c b (fst p) (snd p - 1) k = Ok (nth k ts []).
Proof.
  unfold theory_bins. intro H. apply bind_ok in H as (n & Hn & H). destruct (Z.eqb_spec n (Z.of_nat (List.length (m_x c)))) as [E|]; [|discriminate H].
  cbn [negb] in H. destruct (count_bins_ok _ _ _ Hn) as [En B]. destruct (all_bins_ok _ _ _ _ _ _ H) as (_ & L & V).
  assert (LE : (List.length ts <= List.length (m_x c))%nat).
  { destruct (Nat.eq_dec (List.length ts) 0) as [Z0|NZ]; [lia|]. specialize (V (List.length ts - 1)%nat ltac:(lia)). cbn zeta in V. cbn [Nat.add] in V.
    unfold theory_bin in V. apply bind_ok in V as (a & Ha & _). unfold abscissae in Ha. apply bind_ok in Ha as (x & Hx & _). unfold item in Hx.
    destruct (nth_error (m_x c) (List.length ts - 1)) eqn:N; [|discriminate]. assert (List.length ts - 1 < List.length (m_x c))%nat by (apply nth_error_Some; congruence). lia. }
  assert (C : forall s, In s (m_sections c) -> nz_of b s = Z.of_nat (nb_of b s)) by (apply counts_nonneg; lia).
  exists (nb_of b). assert (D : bin_counts b (m_sections c) (nb_of b)) by (intros s I; rewrite <- C by exact I; now apply B).
  split; [exact D|]. split; [exact L|]. split; [|exact V]. rewrite (sum_bin_list _ _ _ D) in En. lia.
Qed.
Lemma theory_run to_mpc c b ts nb : bin_counts b (m_sections c) nb -> List.length ts = List.length (bin_list nb (m_sections c)) ->
  List.length (m_x c) = List.length ts ->
  (forall k, (k < List.length ts)%nat -> let p := nth k (bin_list nb (m_sections c)) (""%string, 0%nat) in
    theory_bin to_mpc c b (fst p) (snd p - 1) k = Ok (nth k ts [])) -> theory_bins to_mpc c b = Ok ts.
Proof.
  intros C L X V. assert (E : bin_list (nb_of b) (m_sections c) = bin_list nb (m_sections c)) by (apply bin_list_ext; now apply counts_nb).
  assert (B : forall s, In s (m_sections c) -> b s "nbin"%string = Some (BInt (nz_of b s))) by (intros s I; unfold nz_of; rewrite (C s I); reflexivity).
  unfold theory_bins. rewrite count_bins_run by exact B. cbn [bind]. rewrite (sum_bin_list b nb) by exact C.
  replace (Z.eqb _ _) with true by (symmetry; apply Z.eqb_eq; lia). cbn [negb]. apply all_bins_run; [exact B|now rewrite E|rewrite E; exact V].
Qed.

(** ** One bin *)
Lemma real_space_iff s : real_space s = true <-> of_separation s.
Proof.
  unfold real_space, of_separation. cbn. rewrite !orb_true_iff, !String.eqb_eq. intuition congruence.
Qed.
Lemma bin_inv to_mpc c b s i k t : (1 <= i)%nat -> theory_bin to_mpc c b s (i - 1) k = Ok t -> exists x f tx ty,
  nth_error (m_x c) k = Some x /\ unit_factor to_mpc (m_unit c) s f /\
  (List.length tx = List.length ty -> has_theory b s i tx ty) /\ theory_point (m_mode c) tx ty (map (fun v => v * f) x) (nth k (m_edge c) []) = Ok t.
Proof.
  intros Hi H. unfold theory_bin in H. apply bind_ok in H as (a & Ha & H). apply bind_ok in H as (ty & Hy & H).
  replace (i - 1 + 1)%nat with i in * by lia. unfold array, bin_key in Hy. destruct (b s ("bin_" ++ dec i)%string) as [[]|] eqn:EY; inversion Hy; subst; clear Hy.
  unfold abscissae in Ha. apply bind_ok in Ha as (x & Hx & Ha). unfold item in Hx. destruct (nth_error (m_x c) k) as [x'|] eqn:EX; [|discriminate]. inversion Hx; subst x'; clear Hx.
  replace (i - 1 + 1)%nat with i in Ha by lia. destruct (real_space s) eqn:RS.
  - destruct (to_mpc (m_unit c)) as [f|] eqn:U; [|discriminate]. apply bind_ok in Ha as (tx & Ht & Ha). inversion Ha; subst a; clear Ha. cbn [fst snd] in H.
    unfold array in Ht. destruct (b s "rp"%string) as [[]|] eqn:ER; inversion Ht; subst; clear Ht.
    exists x, f, tx, ty. repeat split; try assumption; try exact H. + left. split; [now apply real_space_iff|exact U].
    + left. split; [now apply real_space_iff|exact ER].
  - assert (NS : ~ of_separation s) by (intro Q; apply real_space_iff in Q; congruence).
    assert (MX : map (fun v => v * 1) x = x) by (rewrite <- (map_id x) at 2; apply map_ext; intro; ring).
    destruct (b s ("mass_" ++ dec i)%string) as [[]|] eqn:EM; try discriminate Ha.
    + inversion Ha; subst a; clear Ha. cbn [fst snd] in H. exists x, 1. eexists. eexists. rewrite MX. split; [reflexivity|]. split; [right; now split|]. split; [|exact H].
      intro L. split; [exact EY|]. split; [exact L|]. right. left. now split.
    + apply bind_ok in Ha as (tx & Ht & Ha). inversion Ha; subst a; clear Ha. cbn [fst snd] in H. unfold array in Ht. destruct (b s ("luminosity_" ++ dec i)%string) as [[]|] eqn:EL; inversion Ht; subst; clear Ht.
      exists x, 1, tx, ty. rewrite MX. split; [reflexivity|]. split; [right; now split|]. split; [|exact H].
      intro L. split; [exact EY|]. split; [exact L|]. right. right. now split.
Qed.
Lemma bin_run to_mpc c b s i k x f tx ty : (1 <= i)%nat -> nth_error (m_x c) k = Some x -> unit_factor to_mpc (m_unit c) s f -> has_theory b s i tx ty ->
  theory_bin to_mpc c b s (i - 1) k = theory_point (m_mode c) tx ty (map (fun v => v * f) x) (nth k (m_edge c) []).
Proof.
  intros Hi X U (Y & L & T). unfold theory_bin, abscissae, item. rewrite X. cbn [bind]. replace (i - 1 + 1)%nat with i by lia.
  assert (MX : map (fun v => v * 1) x = x) by (rewrite <- (map_id x) at 2; apply map_ext; intro; ring).
  unfold array, bin_key. rewrite Y. destruct T as [[S T]|[[S T]|[S [T T']]]].
  - replace (real_space s) with true by (symmetry; now apply real_space_iff). destruct U as [[_ ->]|[NS _]]; [|contradiction]. rewrite T. reflexivity.
  - assert (E : real_space s = false) by (destruct (real_space s) eqn:Q; [apply real_space_iff in Q; contradiction|reflexivity]).
    rewrite E. destruct U as [[NS _]|[_ ->]]; [contradiction|]. rewrite T, MX. reflexivity.
  - assert (E : real_space s = false) by (destruct (real_space s) eqn:Q; [apply real_space_iff in Q; contradiction|reflexivity]).
    rewrite E. destruct U as [[NS _]|[_ ->]]; [contradiction|]. rewrite T, T', MX. reflexivity.
Qed.
