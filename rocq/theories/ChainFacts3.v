(** What a run of the pipeline module leaves in the block for the projection modules. *)
From Coq Require Import ZArith Ascii Decimal DecimalString.
From Verif Require Import Base Spec Quad Interp BaseFacts HodModel PkModel AddModel AddSpec FftModel RsModel RsSpec RsFacts2 OgataModel PipeModel PipeSpec PipeFacts PipeFacts2 PipeFacts3 PipeFacts4 PipeFacts6
  OptModel ChainModel ChainSpec ChainFacts ChainFacts2.
Open Scope string_scope.

(** ** A section written by spectra only *)
Lemma put_grid_key b s g key t : ~ In key ["z"; "k_h"] -> holds_grid (put_grid b s g key t) s g key t.
Proof.
  intro N. unfold holds_grid, put_grid. cbn in N. assert (key <> "z" /\ key <> "k_h") as [N1 N2] by (split; intros ->; tauto).
  split; [|split].
  - rewrite !bput_other by (right; congruence). apply bput_same.
  - rewrite bput_other by (right; congruence). apply bput_same.
  - apply bput_same.
Qed.
Lemma put_grid_keep b s g key t key' t' : key' <> key -> ~ In key ["z"; "k_h"] -> ~ In key' ["z"; "k_h"] -> holds_grid b s g key' t' -> holds_grid (put_grid b s g key t) s g key' t'.
Proof.
  intros N K K' (H1 & H2 & H3). destruct (put_grid_key b s g key t K) as (G1 & G2 & _). split; [exact G1|]. split; [exact G2|].
  unfold put_grid. cbn in K'. rewrite !bput_other; [exact H3| | |]; right; intros ->; tauto.
Qed.
Definition pk_keys : list string := ["p_k_1h"; "p_k_2h"; "p_k"].
Lemma pk_key_axis k : In k pk_keys -> ~ In k ["z"; "k_h"].
Proof. intros I J. cbn in I, J. intuition congruence. Qed.
Lemma saved_section g other b s (V : string -> nat -> nat -> R) lg :
  (forall w, In w lg -> w_sec w = s -> In (w_key w) pk_keys /\ w_val w = Some (V (w_key w))) ->
  forall key, (exists w, In w lg /\ w_sec w = s /\ w_key w = key) -> holds_grid (saved g other lg b) s g key (V key).
Proof.
  unfold saved. induction lg as [|w lg IH] using rev_ind; [intros _ key (w & [] & _)|].
  intros A key (w0 & I0 & S0 & K0). rewrite fold_left_app. cbn [fold_left].
  assert (A' : forall w, In w lg -> w_sec w = s -> In (w_key w) pk_keys /\ w_val w = Some (V (w_key w))) by (intros; apply A; [apply in_or_app; now left|assumption]).
  assert (KK : In key pk_keys) by (rewrite <- K0; apply A; assumption).
  destruct (string_dec (w_sec w) s) as [E|N].
  - destruct (A w) as [Kw Vw]; [apply in_or_app; right; now left|exact E|]. unfold save. rewrite Vw, E.
    destruct (string_dec (w_key w) key) as [<-|D]; [apply put_grid_key, pk_key_axis, Kw|].
    apply put_grid_keep; [congruence|apply pk_key_axis, Kw|apply pk_key_axis, KK|]. apply IH; [exact A'|].
    apply in_app_or in I0 as [I0|[->|[]]]; [exists w0; tauto|congruence].
  - assert (holds_grid (fold_left (save g other) lg b) s g key (V key)) as H.
    { apply IH; [exact A'|]. apply in_app_or in I0 as [I0|[->|[]]]; [exists w0; tauto|contradiction]. }
    unfold holds_grid, save in *. destruct (w_val w) as [t|].
    + unfold put_grid. rewrite !bput_other by (left; congruence). exact H.
    + destruct (String.eqb_spec (w_sec w) s); [contradiction|exact H].
Qed.
Lemma saved_other g other b s lg : (forall w, In w lg -> w_sec w <> s) -> forall n, saved g other lg b s n = b s n.
Proof.
  unfold saved. induction lg as [|w lg IH] using rev_ind; [reflexivity|]. intros A n. rewrite fold_left_app. cbn [fold_left].
  assert (N : w_sec w <> s) by (apply A, in_or_app; right; now left).
  rewrite <- (IH (fun w0 I0 => A w0 ltac:(apply in_or_app; now left)) n). unfold save. destruct (w_val w) as [t|].
  - unfold put_grid. now rewrite !bput_other by (left; congruence).
  - destruct (String.eqb_spec (w_sec w) s); [contradiction|reflexivity].
Qed.

(** ** The entries of a spectrum section *)
Lemma tagged_out B U l w base n nb : tagged B U l -> In w l -> (forall x, In x B -> unnumbered x /\ x <> base) -> (forall x, In x U -> free_section x) ->
  unnumbered base -> In base pipeline_sections -> (nb < n)%nat -> w_sec w = bin_name base n nb -> False.
Proof.
  intros T I HB HU UB PB L E. destruct (T w I) as [(base' & n' & nb' & J & L' & E')|J].
  - destruct (HB base' J) as [U' N]. rewrite E in E'. apply bin_name_inj in E' as [E' _]; try assumption. congruence.
  - exact (HU _ J base n nb PB L E).
Qed.
Lemma own_bins base extra bins v w n nb : In w (save_bins base extra bins v) -> unnumbered base -> (forall s k, extra = Some (s, k) -> unnumbered s /\ s <> base) -> (nb < n)%nat ->
  w_sec w = bin_name base n nb -> (nb < bins)%nat /\ bin_name base n nb = bin_name base bins nb /\
    exists comp key, In (comp, key) [("1h", "p_k_1h"); ("2h", "p_k_2h"); ("tot", "p_k")] /\ w = {| w_sec := bin_name base bins nb; w_key := key; w_val := Some (r_val (pick v comp) nb) |}.
Proof.
  intros I U UE L E. apply in_save_bins in I as (nb' & L' & [(comp & key & C & ->)|(s & k & X & ->)]); cbn [w_sec note] in E.
  - pose proof E as E0. apply bin_name_inj in E as [_ E]; try assumption. subst nb'. split; [exact L'|]. split; [now symmetry|]. eauto.
  - destruct (UE s k X) as [U' N]. apply bin_name_inj in E as [E _]; try assumption. contradiction.
Qed.
Ltac others := let H := fresh in intros ? H; cbn in H; repeat (destruct H as [<-|H]; [split; [apply unnumbered_b; reflexivity|discriminate]|]); destruct H.
Ltac no_users := let H := fresh in intros ? H; cbn in H; repeat (destruct H as [<-|H]; [assumption|]); destruct H.
Ltac elsewhere T := exfalso; match goal with I : In ?w _, L : (?nb < ?n)%nat, E : w_sec ?w = bin_name ?base ?n ?nb |- _ =>
  refine (tagged_out _ _ _ w base n nb T I _ _ _ _ L E); [others|no_users|apply unnumbered_b; reflexivity|cbn; tauto] end.
Section Run.
  Variable X : ext.
  Variables (c : config) (r : run_data X).
  Hypothesis obs : PipeFacts3.d_obs X r = [] \/ want_hod c = true /\ g_save_obs c = true /\
       exists n, x_obs_bins X (d_o1 X r) = Ok (Some n) /\ PipeFacts3.d_obs X r = obs_keys (g_obs_section c) n.
  Hypotheses (F1 : free_section (g_hod_section c)) (F2 : free_section (g_hod_section_ia c)) (F3 : free_section (g_obs_section c)).
  (** A line per kind: requested, section, bias table, bins, values. *)
  Inductive line : bool -> string -> option (string * string) -> nat -> arr3 * arr3 * arr3 -> Prop :=
  | line_gg : line (g_gg c) "galaxy_power" (Some ("galaxy_linear_bias", "bg_linear")) (d_n1 X r) (d_gg X r)
  | line_gm : line (g_gm c) "matter_galaxy_power" (Some ("galaxy_matter_linear_bias", "bgm_linear")) (d_n1 X r) (d_gm X r)
  | line_ii : line (alignment c && g_II c) "intrinsic_power" None (d_n2 X r) (d_ii X r)
  | line_gi : line (alignment c && g_gI c) "galaxy_intrinsic_power" None (d_n2 X r) (d_gi X r)
  | line_mi : line (alignment c && g_mI c) "matter_intrinsic_power" None (d_n2 X r) (d_mi X r).
  Lemma line_name want base extra bins v : line want base extra bins v -> unnumbered base /\ forall s k, extra = Some (s, k) -> unnumbered s /\ s <> base.
  Proof.
    intro H. destruct H; (split; [apply unnumbered_b; reflexivity|]); intros s k E; try discriminate; injection E as <- <-; (split; [apply unnumbered_b; reflexivity|discriminate]).
  Qed.
  Theorem entries want base extra bins v w n nb : line want base extra bins v -> In w (full_log X c r) -> (nb < n)%nat -> w_sec w = bin_name base n nb ->
    want = true /\ In w (save_bins base extra bins v).
  Proof.
    intros K I L E.
    assert (To : tagged [] [g_obs_section c] (PipeFacts3.d_obs X r)) by (destruct obs as [->|(_ & _ & m & _ & ->)]; [intros ? []|apply tagged_obs]).
    assert (Th : tagged [] [g_hod_section c] (part (want_hod c) (hod_keys (g_hod_section c) (d_n1 X r)))) by (apply tagged_part; intros _; apply tagged_hod).
    assert (Ti : tagged [] [g_hod_section_ia c] (hod_keys (g_hod_section_ia c) (d_n2 X r))) by apply tagged_hod.
    assert (Tm : tagged ["matter_power_nl"] [] (part (andb (g_mm c) (negb (g_response c))) (pk_grid "matter_power_nl" "" (d_mm X r) 0)))
      by (apply tagged_part; intros _; apply tagged_grid).
    assert (Tgg : tagged ["galaxy_power"; "galaxy_linear_bias"] [] (part (g_gg c) (save_bins "galaxy_power" (Some ("galaxy_linear_bias", "bg_linear")) (d_n1 X r) (d_gg X r)))).
    { apply tagged_part. intros _. apply tagged_bins; [now left|]. intros s k Q. injection Q as <- <-. cbn; tauto. }
    assert (Tgm : tagged ["matter_galaxy_power"; "galaxy_matter_linear_bias"] []
       (part (g_gm c) (save_bins "matter_galaxy_power" (Some ("galaxy_matter_linear_bias", "bgm_linear")) (d_n1 X r) (d_gm X r)))).
    { apply tagged_part. intros _. apply tagged_bins; [now left|]. intros s k Q. injection Q as <- <-. cbn; tauto. }
    assert (Tii : tagged ["intrinsic_power"] [] (part (g_II c) (save_bins "intrinsic_power" None (d_n2 X r) (d_ii X r)))) by (apply tagged_part; intros _; apply tagged_bins; [now left|discriminate]).
    assert (Tgi : tagged ["galaxy_intrinsic_power"] [] (part (g_gI c) (save_bins "galaxy_intrinsic_power" None (d_n2 X r) (d_gi X r)))) by (apply tagged_part; intros _; apply tagged_bins; [now left|discriminate]).
    assert (Tmi : tagged ["matter_intrinsic_power"] [] (part (g_mI c) (save_bins "matter_intrinsic_power" None (d_n2 X r) (d_mi X r)))) by (apply tagged_part; intros _; apply tagged_bins; [now left|discriminate]).
    unfold full_log in I. repeat rewrite in_app_iff in I.
    assert (AL : In w (part (alignment c) (hod_keys (g_hod_section_ia c) (d_n2 X r) ++ part (g_II c) (save_bins "intrinsic_power" None (d_n2 X r) (d_ii X r)) ++
        part (g_gI c) (save_bins "galaxy_intrinsic_power" None (d_n2 X r) (d_gi X r)) ++ part (g_mI c) (save_bins "matter_intrinsic_power" None (d_n2 X r) (d_mi X r)))%list) ->
      alignment c = true /\ (In w (hod_keys (g_hod_section_ia c) (d_n2 X r)) \/ In w (part (g_II c) (save_bins "intrinsic_power" None (d_n2 X r) (d_ii X r))) \/
        In w (part (g_gI c) (save_bins "galaxy_intrinsic_power" None (d_n2 X r) (d_gi X r))) \/ In w (part (g_mI c) (save_bins "matter_intrinsic_power" None (d_n2 X r) (d_mi X r))))).
    { unfold part at 1. destruct (alignment c); [|intros []]. intro J. split; [reflexivity|]. repeat rewrite in_app_iff in J. exact J. }
    destruct K; (destruct I as [I|[I|[I|[I|[I|[I|I]]]]]]; [elsewhere tagged_matter|elsewhere Th|elsewhere To|elsewhere Tm| | |]).
    - unfold part in I. destruct (g_gg c); [now split|destruct I].
    - elsewhere Tgm.
    - apply AL in I as [A [I|[I|[I|I]]]]; [elsewhere Ti|elsewhere Tii|elsewhere Tgi|elsewhere Tmi].
    - elsewhere Tgg.
    - unfold part in I. destruct (g_gm c); [now split|destruct I].
    - apply AL in I as [A [I|[I|[I|I]]]]; [elsewhere Ti|elsewhere Tii|elsewhere Tgi|elsewhere Tmi].
    - elsewhere Tgg.
    - elsewhere Tgm.
    - apply AL in I as [A [I|[I|[I|I]]]]; [elsewhere Ti| |elsewhere Tgi|elsewhere Tmi]. rewrite A. unfold part in I. destruct (g_II c); [now split|destruct I].
    - elsewhere Tgg.
    - elsewhere Tgm.
    - apply AL in I as [A [I|[I|[I|I]]]]; [elsewhere Ti|elsewhere Tii| |elsewhere Tmi]. rewrite A. unfold part in I. destruct (g_gI c); [now split|destruct I].
    - elsewhere Tgg.
    - elsewhere Tgm.
    - apply AL in I as [A [I|[I|[I|I]]]]; [elsewhere Ti|elsewhere Tii|elsewhere Tgi|]. rewrite A. unfold part in I. destruct (g_mI c); [now split|destruct I].
  Qed.
  (** The section of a bin holds the three spectra of that bin. *)
  Lemma line_in want base extra bins v w : line want base extra bins v -> want = true -> In w (save_bins base extra bins v) -> In w (full_log X c r).
  Proof.
    intros K W I. unfold full_log. repeat rewrite in_app_iff. unfold part. destruct K; rewrite ?W; try tauto;
      apply andb_prop in W as [A W]; rewrite A, ?W; repeat rewrite in_app_iff; tauto.
  Qed.
  Theorem line_saved want base extra bins v g other b nb comp key : line want base extra bins v -> want = true -> (nb < bins)%nat ->
    In (comp, key) [("1h", "p_k_1h"); ("2h", "p_k_2h"); ("tot", "p_k")] ->
    holds_grid (saved g other (full_log X c r) b) (bin_name base bins nb) g key (r_val (pick v comp) nb).
  Proof.
    intros K W L C. destruct (line_name _ _ _ _ _ K) as [U UE].
    set (V := fun k => if String.eqb k "p_k_1h" then r_val (pick v "1h") nb else if String.eqb k "p_k_2h" then r_val (pick v "2h") nb else r_val (pick v "tot") nb).
    replace (r_val (pick v comp) nb) with (V key) by (cbn in C; destruct C as [E|[E|[E|[]]]]; injection E as <- <-; reflexivity).
    apply saved_section.
    - intros w I E. destruct (entries _ _ _ _ _ _ _ _ K I L E) as [_ J].
      destruct (own_bins _ _ _ _ _ _ _ J U UE L E) as (_ & _ & comp' & key' & C' & ->). cbn [w_key w_val].
      cbn in C'. destruct C' as [Q|[Q|[Q|[]]]]; injection Q as <- <-; (split; [cbn; tauto|reflexivity]).
    - exists {| w_sec := bin_name base bins nb; w_key := key; w_val := Some (r_val (pick v comp) nb) |}. split; [|split; reflexivity].
      apply (line_in _ _ _ _ _ _ K W). apply in_save_bins. exists nb. split; [exact L|]. left. eauto.
  Qed.
  (** Other numbers of the same name, and the bare name beside numbered bins, are left alone. *)
  Theorem line_untouched want base extra bins v g other b n nb : line want base extra bins v -> (nb < n)%nat ->
    want = false \/ (bins <= nb)%nat \/ (bins = 1%nat /\ n <> 1%nat) \/ (bins <> 1%nat /\ n = 1%nat) ->
    forall k, saved g other (full_log X c r) b (bin_name base n nb) k = b (bin_name base n nb) k.
  Proof.
    intros K L D. destruct (line_name _ _ _ _ _ K) as [U UE]. apply saved_other. intros w I E.
    destruct (entries _ _ _ _ _ _ _ _ K I L E) as [W J].
    destruct (own_bins _ _ _ _ _ _ _ J U UE L E) as (Lb & En & _).
    destruct D as [D|[D|[[D1 D2]|[D1 D2]]]]; [congruence|lia| |]; unfold bin_name in En; destruct (Nat.eq_dec n 1), (Nat.eq_dec bins 1); try contradiction.
    - apply U. rewrite <- En. apply (numbered_last base (S nb)).
    - apply U. rewrite En. apply (numbered_last base (S nb)).
  Qed.
End Run.
